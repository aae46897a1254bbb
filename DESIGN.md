# Design

Formal model of childe/healer (a Kafka client in Go) in Rocq/Coq 8.16.1.  Build with
`coq_makefile -f _CoqProject -o Makefile && make -j4` in `rocq/`.

## Approach

* Bytes are `Z` values, byte strings are `list Z`.  Go integers are `Z`; every conversion
  that can wrap (`uint16(len)`, `int32(x)`, correlation id, ...) is an explicit modular
  reduction (`uint`, `sint`).
* A Go function that can panic returns `res A := Ok a | Err e | Panic | Unspec`.  Slicing
  out of range, negative `make`, nil dereference, failed type assertion and division by
  zero are `Panic`.  `Unspec` marks the one situation the model does not follow: a varint
  longer than ten bytes, for which `binary.Uvarint` returns a negative count and the code
  moves its cursor backwards.  No positive theorem treats `Unspec` as success.
* Decoders are functions from the remaining bytes (`payload[offset:]`) to
  `res (A * rest)`.
* Encoders that fill a pre-sized buffer are lists of `Put`/`Copy`/`CopyN` writes run
  against the size the code computes, so an under-sized buffer panics or truncates as it
  does in Go.
* Concurrent parts (broker handle, producers, consumers, group consumer) are state
  machines with explicit atomic steps; a schedule is a list of steps and theorems
  quantify over all of them.
* The network, the broker, compressors, clocks, map iteration orders and random choices
  are inputs (oracle lists or Section variables) over which theorems quantify.
* `Wire.v` is an independent description of the Kafka protocol (types, their
  serialisation and a reader for them), used as specification for the hand-written codecs.

Files: model definitions (each cites file and lines) are in the files of the table below;
`*Spec.v` and `Wire.v` are specifications; `*Facts.v`, `*Refute.v` and the like are proofs;
`T_*.v` hold the property theorems, each closed by `exact`, with `Print Assumptions`
beneath and an `Example` showing a non-trivial instance.

Names: `Cxx_...` proves property Cxx; `..._refuted` proves that the property, or the part of
it named, is false of the code; `..._partial` proves the part of a refuted property that
holds.  A property whose full statement is false has status "partial" in MANIFEST.json and a
note starting with REFUTED.

## What is modelled

| model file | source | what |
|----|----|----|
| `Prims.v` | primitive_type_encode.go, primitive_types_decode.go, tagged_fields.go | strings, byte strings, array lengths, tagged fields |
| `Group.v` | group.go | member assignment and subscription codecs |
| `Assign.v` | assign.go | range assignment |
| `Records.v` | record.go, simple_producer.go:139-192 | record and record batch encoding and decoding |
| `Fetch.v` | fetch_response.go, message.go, parts of record.go | the streaming fetch decoder over a byte stream with chunks |
| `Conn.v` | broker.go, response.go:31-87 | one broker handle: connection, correlation ids, versions, SASL, locks, reopening |
| `Requests.v` | request.go, all `Encode`/`length` of `*_request.go` | request header and 30 request bodies |
| `Responses.v` | response.go:89-203, all decoders and `Error` methods of `*_response.go` | response decoding |
| `Producer.v` | simple_producer.go, producer.go, MurmurHash2 | queueing, flushing, closing, choice of partition |
| `Consumer.v` | simple_consumer.go, fetch_response.go:509-551 | start offsets, fetch loop, errors, commits |
| `Gcons.v` | group_consumer.go | join, sync, heartbeat, commit, restart, close, metadata comparison |
| `Builders.v` | the `Add...` functions of `*_request.go` | requests filled entry by entry |
| `Config.v` | config.go, broker.go:219-224 | configurations, timeouts, checks |
| `Acl.v` | acl_types.go | text forms of ACL enumerations |
| `ErrorCode.v` | errorcode.go | table of error codes |
| `Closing.v` | the `Close`, `AwaitClose` functions | repeated closing |
| `Brokers.v` | brokers.go, client.go | broker list, lookups, fail-over, administrative calls |
| `TopConsumer.v` | consumer.go, simple_consumer.go:147-176 | assignment, Consume, AwaitClose of a consumer of topics |
| `Text.v` | Go library (strings, strconv) | Split, SplitN, Replace, Atoi |
| `Tools.v` | command/healer/cmd: get-pending.go, reset-offset.go, create-topic.go, create-partitions.go, ACL commands, timeouts | command line tools as functions of the answers |
| `Commands.v` | command/healer/cmd: get-pending.go, get-offsets.go, the consumers and producers, ACL and configuration commands, root.go | flags, owners, printing, lines read, exit status |
| `Calls.v` | the `New...Request` functions, `Set...` methods, client.go:183-345 | the requests made by the calls, from their arguments |
| `Follow.v` | simple_consumer.go:47-144, 224-319, 400-505 | which broker a consumer asks and the epoch it sends while leaders move; the coordinator it uses |
| `Settings.v` | healer_tags.go, apiversions_response.go:8-133, config.go:10-75, broker.go:91-157, the `NewTicker` calls | version tags, API names, what a connection is made with, intervals |
| `Clock.v` | response.go:45-88, broker.go:219-225, 283-319 | read deadlines: when a request ends |
| `Helper.v` | helper.go, broker.go:339-347 | the groups of all brokers |
| `Http.v` | command/healer/cmd/api.go, apicontrollers | authentication, handlers |
| `ReqDecode.v` | request.go:147-170, the decoders of `*_request.go`, record.go:305-356 | request decoding (used by the package's tests) |
| `RespEncode.v` | response.go:170-193, the `Encode` functions of `*_response.go`, message.go:49-107 | response and message set encoding (used by the package's tests) |
| `FetchEncode.v` | message_encode.go | encoding of fetch responses |
| `Names.v` | compress_type.go, compressor.go, simple_producer.go:82-96, sasl_plain.go, sasl_authenticate_request.go:30-46 | names of compression types, SASL tokens |
| `Lead.v` | group_consumer.go:97-128, 171-187, 226-238 | what a member sends, what the leader asks and answers |
| `HttpApi.v` | command/healer/cmd/api.go:106-172, command/healer/cmd/apicontrollers/*.go | the routes of the HTTP interface, URLs and bodies, and what the handlers ask the cluster for |
| `Flags.v` | command/healer/main.go, command/healer/cmd/root.go, the init functions of command/healer/cmd/*.go, get-metadata.go:49-66 | the flags of all commands: parsing (pflag, cobra, flag), types, defaults, which are read; what get-metadata prints |
| `OldZip.v` | message.go:38-48, 109-185 | specification of compressed messages of magic 0 and 1, and what the decoder makes of them |
| `CloseTime.v` | consumer.go:140-169, group_consumer.go:360-386, 411-434, simple_consumer.go:277-294, 400-454 | how long closing and rejoining wait |
| `Crew.v` | the machine of `Gcons.v` for every member (group_consumer.go) | a group of any number of members with a coordinator, through any number of rounds |
| `Locks.v` | all functions of broker.go, brokers.go, client.go, producer.go, simple_producer.go, consumer.go, simple_consumer.go, group_consumer.go that take a lock or call one that does | only the order of taking and giving back locks, waiting for the network, and the uses of shared maps; branches are choices and loops run any number of times; channels of messages and the wait groups `wg` left out |
| `Owners.v` | simple_producer.go 37-129, 228-248, producer.go 17-117, 188-199, simple_consumer.go 112-178, 277-294, consumer.go 140-169, group_consumer.go 411-434: which connections are made and closed | over the broker lists of `Brokers.v`; producers for keys and leaders in the context left out; a consumer that has a leader looks up none |
| `Lives.v` | producer.go 34-117, 133-166, 188-199, simple_producer.go 69-129, 228-248, consumer.go 140-169, group_consumer.go 148-171, 360-386, 411-495, simple_consumer.go 55-73, 277-281: which goroutines are started and what ends them | group consumers over the machine of `Gcons.v`; goroutines that are given a turn take it; the goroutines of logging and of the HTTP server left out |
| `Compose.v` | the New functions, setters and adders of eleven requests, used in any order by a caller | built on `Calls.v` and `Builders.v`; fields written directly are left out |
| `Starting.v` | simple_consumer.go 180-294, 297-338, 342-454: Consume, the loop, the commits and Stop as four threads | a consumer that belongs to no group consumer and is started once; what the loop fetches is any offset; a closed handle can be opened again |
| `GroupCommit.v` | group_consumer.go 320-358, simple_consumer.go 320-338, 380-392: CommitOffset called by any number of goroutines | the list of partition consumers changes only between calls; the request itself is in `Compose.v` |
| `Reserve.v` | the count given to the first make of thirteen response decoders, response.go 63-64 | decoders that need a varint or start with something else than a list are left out; nested counts are covered by what is decoded |
| `Utf8Spec.v`, `Shown.v`, `ShownSpec.v` | command/healer/cmd/*.go, *_response.go, acl_types.go, message.go:21-35, encoding/json | what the commands print: JSON values of the response types, invalid UTF-8, base64, fields hidden by others or by their tags |
| `JsonSpec.v`, `JsonText.v`, `ShownEvent.v` | encoding/json Marshal and MarshalIndent, message.go:13-18, group-consumer.go:84, console-consumer.go:82 | the text of JSON values and a reader of it (specification); what is printed for messages and errors |
| `DeadSpec.v`, `AsksSpec.v`, `AcksSpec.v`, `BulkSpec.v`, `TroubleSpec.v`, `TimeSpec.v` | (specifications) | exchanges in which nothing comes back; the fetch sessions a broker keeps, without eviction; which batches of a log are committed; brokers that send no answer if none is asked for; the bytes of messages; the partition Kafka chooses for a key; the time of a record |

Not modelled: logging, metrics, the rest of the command line programs, the TLS protocol, the parser of JSON texts (bodies are
modelled as parsed values), mocks and tests, and the Go runtime: data
races on unsynchronised fields are not modelled as such except for the maps in `Locks.v` (a step reads and writes the fields
it names without interruption; where an interruption matters, the step is split).

## Properties: what is modelled and how each is proved

| id | title | method | outcome |
|----|----|----|----|
| C01 | Length-prefixed strings and byte strings survive the wire | round trip with arbitrary suffix; induction on digits and lists | false as stated; partly proved |
| C02 | Nullable byte strings survive the wire | round trip; counterexamples by computation | false as stated; partly proved |
| C03 | Variable-length integers survive the wire | round trip with arbitrary suffix; induction on digits and lists | proved |
| C04 | Tagged fields survive the wire | round trip with arbitrary suffix; induction on digits and lists | proved |
| C05 | A produced record is decoded back unchanged by the fetch path | record and batch encoder composed with the stream decoder; round trip | false as stated; partly proved |
| C06 | Record batch framing and checksum | encoder output against a batch layout (RecordSpec.v) | proved |
| C07 | Records of one batch get consecutive offsets | guarded round trip; counterexamples by computation | false as stated; partly proved |
| C08 | Record encoding is well formed for every offset delta | guarded round trip; counterexamples by computation | false as stated; partly proved |
| C09 | Fetch decoding delivers exactly the complete records at or after the requested offset | decoder run over every stream of a log cut anywhere = filter of the log (FetchSpec.v) | false as stated; partly proved |
| C10 | Fetch decoding of old message sets | decoder run over every stream of a log cut anywhere = filter of the log (FetchSpec.v) | false as stated; partly proved |
| C11 | A too small fetch size is reported instead of stalling | measure on the fetch size; counterexample runs | false as stated; partly proved |
| C12 | Response framing is independent of how the network splits the stream | read loop over chunk lists = split at the length | false as stated; partly proved |
| C13 | A request gets the response that answers it | invariants of the connection machine over all histories; counterexample schedules | false as stated; partly proved |
| C14 | Correlation ids on a connection are consecutive | counter modulo 2^32, invariant over histories | proved |
| C15 | Negotiated API version is usable by both sides | characterisation of the selection | false as stated; partly proved |
| C16 | No request travels over an unauthenticated connection | invariants of the connection machine over all histories; counterexample schedules | false as stated; partly proved |
| C17 | A broker handle reconnects after its connection was dropped | invariants of the connection machine over all histories; counterexample schedules | false as stated; partly proved |
| C18 | Every request is framed correctly | writes against computed sizes; output read back by the schema reader of Wire.v | false as stated; partly proved |
| C19 | Request bodies match the protocol schema | writes against computed sizes; output read back by the schema reader of Wire.v | false as stated; partly proved |
| C20 | Re-sending a request object to another broker re-encodes it for that broker | writes against computed sizes; output read back by the schema reader of Wire.v | false as stated; partly proved |
| C21 | Responses are decoded to what the broker sent | decoder applied to the schema serialisation returns the fields, per API and version | false as stated; partly proved |
| C22 | Cluster id in metadata is the broker's cluster id | decoder applied to the schema serialisation returns the fields, per API and version | false as stated; partly proved |
| C23 | Metadata is presented sorted and complete | decoder applied to the schema serialisation returns the fields, per API and version | proved |
| C24 | A broker-reported error is never mistaken for success | decoder applied to the schema serialisation returns the fields, per API and version | false as stated; partly proved |
| C25 | A corrupt or truncated response never crashes the process | counterexample for every API; rejection theorems | false as stated; partly proved |
| C26 | Multi-element admin responses keep every element | decoder applied to the schema serialisation returns the fields, per API and version | false as stated; partly proved |
| C27 | Range assignment is a partition of the topic's partitions | arithmetic of the range assignment; permutation invariance of sorting | proved |
| C28 | Assignment does not depend on the order in which members or partitions are listed | arithmetic of the range assignment; permutation invariance of sorting | proved |
| C29 | Group leader survives topics nobody subscribes to | arithmetic of the range assignment; permutation invariance of sorting | false as stated; partly proved |
| C30 | Each member receives the assignment computed for it | round trip of the group codecs | proved |
| C31 | User data in assignments survives | round trip of the group codecs | false as stated; partly proved |
| C32 | Accepted messages reach the broker once, in order, when nothing fails | trace invariants of the simple producer machine | proved |
| C33 | A failed send is reported to the caller | trace invariants of the simple producer machine | false as stated; partly proved |
| C34 | Nothing is sent after Close | trace invariants of the simple producer machine | false as stated; partly proved |
| C35 | The multi-partition producer never drops a message silently | invariants of the producer machine; interference of refreshes counted | false as stated; partly proved |
| C36 | Same key, same partition | invariants of the producer machine; interference of refreshes counted | proved |
| C37 | Caller may reuse its buffers | heap with caller writes interleaved | false as stated; partly proved |
| C38 | A consumer sees the log in order without gaps or duplicates | trace invariants of the partition consumer over an honest log | false as stated; partly proved |
| C39 | Committed offset never runs ahead of delivery | trace invariants of the partition consumer over an honest log | false as stated; partly proved |
| C40 | Only real offsets are committed | trace invariants of the partition consumer over an honest log | false as stated; partly proved |
| C41 | Out-of-range offsets are reset according to the configuration | trace invariants of the partition consumer over an honest log | false as stated; partly proved |
| C42 | Start offset resolution | trace invariants of the partition consumer over an honest log | proved |
| C43 | Group requests carry the identity of the latest join | trace invariants of the group consumer machine over all schedules | false as stated; partly proved |
| C44 | Group membership loop ends only joined or closed | trace invariants of the group consumer machine over all schedules | false as stated; partly proved |
| C45 | Closing a group consumer never crashes | trace invariants of the group consumer machine over all schedules | false as stated; partly proved |
| C46 | Metadata change detection | decision procedure against a relation | proved |
| C47 | Metadata requests fail over | induction over the loops of brokers.go and client.go for every network; invariants over histories of calls | proved |
| C48 | Offset queries ask each partition's leader exactly once | induction over the loops of brokers.go and client.go for every network; invariants over histories of calls | proved |
| C49 | Broker handles follow the cluster metadata | induction over the loops of brokers.go and client.go for every network; invariants over histories of calls | false as stated; partly proved |
| C50 | Group listings are attributed to the right broker | induction over the loops of brokers.go and client.go for every network; invariants over histories of calls | false as stated; partly proved |
| C51 | Failed administrative calls report errors instead of crashing | case analysis; counterexample networks | false as stated; partly proved |
| C52 | Offset commit and fetch requests hold one entry per partition | association list specification; induction over additions | proved |
| C53 | Topic creation requests | association list specification; induction over additions | false as stated; partly proved |
| C54 | Invalid configurations are rejected, valid ones are kept | case analysis of checks and timeouts | false as stated; partly proved |
| C55 | Consumers do not share configuration | heap model of the shared slice | false as stated; partly proved |
| C56 | ACL enum text forms round-trip | finite tables by computation, lifted to all values | false as stated; partly proved |
| C57 | Error codes map to errors one-to-one | finite tables by computation, lifted to all values | false as stated; partly proved |
| C58 | Repeated close is harmless | case analysis of close functions | false as stated; partly proved |
| C59 | Closing a handle beside a request | interleavings of a close with the uses of a request | false as stated; partly proved |
| C60 | A partition without leader is reported | invariants of the producer machine; interference of refreshes counted | false as stated; partly proved |
| C61 | A closed multi-partition producer stays closed | invariants of the producer machine; interference of refreshes counted | false as stated; partly proved |
| C62 | Keyed messages follow the leader | invariants of the producer machine; interference of refreshes counted | false as stated; partly proved |
| C63 | A fetch response is consumed before the next is read | trace invariants of the partition consumer over an honest log | false as stated; partly proved |
| C64 | An unreachable leader is retried | trace invariants of the partition consumer over an honest log | false as stated; partly proved |
| C65 | A closed group consumer starts nothing | trace invariants of the group consumer machine over all schedules | false as stated; partly proved |
| C66 | Listing requests name every partition once | association list specification; induction over additions | proved |
| C67 | Config change requests keep one value per name | association list specification; induction over additions | proved |
| C68 | Leader election and reassignment requests keep every addition | association list specification; induction over additions | proved |
| C69 | Request timeouts follow the configuration | case analysis of checks and timeouts | false as stated; partly proved |
| C70 | Looking up a leader never crashes | induction over the loops of brokers.go and client.go for every network; invariants over histories of calls | false as stated; partly proved |
| C71 | One connection per broker | induction over the loops of brokers.go and client.go for every network; invariants over histories of calls | proved |
| C72 | Administrative requests go to the current controller | induction over the loops of brokers.go and client.go for every network; invariants over histories of calls | false as stated; partly proved |
| C73 | Closing a client closes its connections | induction over the loops of brokers.go and client.go for every network; invariants over histories of calls | false as stated; partly proved |
| C74 | Log directory descriptions cover all replicas | induction over the loops of brokers.go and client.go for every network; invariants over histories of calls | false as stated; partly proved |
| C75 | Deleting groups reports every group | induction over the loops of brokers.go and client.go for every network; invariants over histories of calls | false as stated; partly proved |
| C76 | Broker configurations are asked of the broker named | induction over the loops of brokers.go and client.go for every network; invariants over histories of calls | false as stated; partly proved |
| C77 | A consumer of topics consumes exactly what was asked | trace invariants of the machine of Consume over all schedules | false as stated; partly proved |
| C78 | Closing a consumer of topics | trace invariants of the machine of Consume over all schedules | false as stated; partly proved |
| C79 | Lag is the number of messages not consumed | tool as a function of the answers; order of maps as an arbitrary permutation | false as stated; partly proved |
| C80 | Totals add up | tool as a function of the answers; order of maps as an arbitrary permutation | proved |
| C81 | Group patterns select matching groups | relation of patterns; matcher proved equal | false as stated; partly proved |
| C82 | Resetting offsets commits what was asked | tool as a function of the answers; order of maps as an arbitrary permutation | false as stated; partly proved |
| C83 | The storage flag is honoured | case analysis | false as stated; partly proved |
| C84 | A replica assignment is sent in full | print and parse round trip; orders characterised | false as stated; partly proved |
| C85 | Partition assignments are understood | print and parse round trip; orders characterised | false as stated; partly proved |
| C86 | ACL commands act on the resource named | case analysis | false as stated; partly proved |
| C87 | Timeout arguments are the time waited | case analysis | false as stated; partly proved |
| C88 | Only the credentials are let through | base64 round trip | proved |
| C89 | HTTP requests are answered once | handlers as programs of a small language; all outcomes | false as stated; partly proved |
| C90 | HTTP handlers close their connections | handlers as programs of a small language; all outcomes | false as stated; partly proved |
| C91 | Request headers are read back | round trips through the layouts; sent bytes from C18 | proved |
| C92 | Requests are read back by the package's decoders | round trips through the layouts; sent bytes from C18 | false as stated; partly proved |
| C93 | Responses are read back by the package's decoders | round trips through the decoders; refutations by evaluation | false as stated; partly proved |
| C94 | Message sets are read back | round trips through the decoders; refutations by evaluation | false as stated; partly proved |
| C95 | Encoded fetch responses deliver their records | round trips through the decoders; refutations by evaluation | false as stated; partly proved |
| C96 | What is produced is what is consumed | composition of C32, the broker as a function on bytes, and C38 | false as stated; partly proved |
| C97 | Nothing committed is lost across restarts | induction over the consumers, from C38, C39 and C42 | false as stated; partly proved |
| C98 | Compression names, codes and algorithms agree | case analysis; broker side from C19; uniqueness of the split at zero bytes | proved |
| C99 | Credentials reach the broker | case analysis; broker side from C19; uniqueness of the split at zero bytes | false as stated; partly proved |
| C100 | A round of a group shares out the partitions | composition through the wire formats (C18, C21), range assignment, runs of the member machine | proved |
| C101 | An unknown topic does not keep the group waiting | composition through the wire formats (C18, C21), range assignment, runs of the member machine | false as stated; partly proved |
| C102 | Stop ends a partition consumer | invariant of the stopped states; case analysis of the answers | proved |
| C103 | Looking up the start offset never crashes | invariant of the stopped states; case analysis of the answers | false as stated; partly proved |
| C104 | Flags of the ACL commands reach the broker | induction over the texts, answers and messages | false as stated; partly proved |
| C105 | get-pending shows the owner of every partition | invariant of the map from topic and partition to member, over members and topics | false as stated; partly proved |
| C106 | All groups are found, or the failure is reported | induction over the brokers of the metadata, trace of the calls | false as stated; partly proved |
| C107 | get-offsets shows every partition in order | induction over the texts, answers and messages | false as stated; partly proved |
| C108 | The exit status tells whether the command worked | induction over the calls of a command | false as stated; partly proved |
| C109 | The printing consumers print the messages asked for | induction over the texts, answers and messages | false as stated; partly proved |
| C110 | Settings given on the command line are used | induction over the texts, answers and messages | false as stated; partly proved |
| C111 | Configuration requests name the right type and go to the right broker | induction over the texts, answers and messages | false as stated; partly proved |
| C112 | The producers send every line | induction over the reads; every prefix of the input cuts into lines and a rest | false as stated; partly proved |
| C113 | The request a call sends asks for what the caller asked | case analysis over the calls, on top of C01 to C16: each request is a value of the layout of its version | false as stated; partly proved |
| C114 | A consumer goes on after its leader moved | a measure of what the consumer does not know yet, which every request that brings nothing makes smaller | false as stated; partly proved |
| C115 | A consumer follows its coordinator | induction over the worlds | false as stated; partly proved |
| C116 | The last commit covers what was handed out | invariant of the consumer machine: the offset of the state is the position behind the messages handed out | false as stated; partly proved |
| C117 | Fields are present in the versions their tags say | induction over the fields of a struct | false as stated; partly proved |
| C118 | Connections are made as configured | case analysis; tables compared by computation | false as stated; partly proved |
| C119 | API names are Kafka's | case analysis; tables compared by computation | false as stated; partly proved |
| C120 | Accepted intervals do not crash the program | case analysis; tables compared by computation | false as stated; partly proved |
| C121 | A request takes no longer than its timeout | a measure of the time and the pieces that have not arrived; induction over the reads | false as stated; partly proved |
| C122 | HTTP requests ask for what they say | routing table and round trip of URLs; decoding of objects up to permutation; case analysis over the routes | false as stated; partly proved |
| C123 | Reading over HTTP changes nothing | routing table and round trip of URLs; decoding of objects up to permutation; case analysis over the routes | false as stated; partly proved |
| C124 | Lag and offsets over HTTP are right | as C79 | false as stated; partly proved |
| C125 | Flags mean what the user said | state of the flags as a function of the items read; induction over the items; tables by computation | false as stated; partly proved |
| C126 | Flags that are read exist, flags that exist are read | invariant of the parser: the flags stay and their values have the types; tables by computation | false as stated; partly proved |
| C127 | get-metadata shows the metadata | induction over brokers and topics | false as stated; partly proved |
| C128 | Compressed messages of the old formats are unpacked | as C94 | false as stated; partly proved |
| C129 | Closing takes no longer than its timeout | bounds by induction over the partition consumers; a family of schedules for every number of them | false as stated; partly proved |
| C130 | A member rejoins within its session | bounds by induction over the partition consumers; a family of schedules for every number of them | false as stated; partly proved |
| C131 | A partition has one consumer in a group | invariant of the group: what a member runs is in its assignment of the current generation; uses the invariant of C45 | false as stated; partly proved |
| C132 | Commits come from the consumer of the partition | invariant of the group: what a member runs is in its assignment of the current generation; uses the invariant of C45 | false as stated; partly proved |
| C133 | Goroutines do not wait for each other for ever | a rank of the locks such that every function takes them in this order, by induction over its operations; invariant of all reachable states | false as stated; partly proved |
| C134 | Closing a handle does not wait for the network | a rank of the locks such that every function takes them in this order, by induction over its operations; invariant of all reachable states | proved |
| C135 | A slow broker holds up only those who ask it | a state that nothing but the answer changes; otherwise as C133 | false as stated; partly proved |
| C136 | Shared maps are used by one goroutine at a time | a rank of the locks such that every function takes them in this order, by induction over its operations; invariant of all reachable states | false as stated; partly proved |
| C137 | Closing closes the connections | what an operation does to the connections as a relation that composes: each it makes is kept in the list, handed to the caller, closed, or was only asked for the brokers | false as stated; partly proved |
| C138 | The number of open connections is bounded | what an operation does to the connections as a relation that composes: each it makes is kept in the list, handed to the caller, closed, or was only asked for the brokers | false as stated; partly proved |
| C139 | Goroutines end after closing | invariants of the producers and of the partition consumers; the group by the guarded runs of C45 | false as stated; partly proved |
| C140 | A partition consumer can be stopped while it starts | invariant over the four threads, by induction over the interleaving | false as stated; partly proved |
| C141 | Requests put together by the user | what the steps do to the fields and to the entries, each by induction over the steps; then as C113 | false as stated; partly proved |
| C142 | Groups that start at the end of a partition | the induction of C97, generalised to any way in which a position can be resumed | false as stated; partly proved |
| C143 | What a member is assigned is consumed | invariant over the interleaving: what was started and what is left are the assignment | false as stated; partly proved |
| C144 | A response that ends early | every decoder is stable: what a beginning decides, more bytes do not change; composed over the decoders, then the shortest deciding beginning | false as stated; partly proved |
| C145 | Committing on demand commits what was consumed | invariants over the interleaving; for a call alone, of the consumers it has dealt with | false as stated; partly proved |
| C146 | What is produced reaches the group | C96 and C97 together: the log of the broker is numbered as received, and what the group has committed was handed out | false as stated; partly proved |
| C147 | A response takes memory in proportion to its bytes | a measure of what parsers return against what they consume, carried through the combinators to every decoder; the counterexamples are decoded symbolically, for any count | false as stated; partly proved |
| C148 | Damaged batches are not handed out | the induction of C09 with any four bytes in the place of the checksum; for old messages by unfolding | false as stated; partly proved |
| C149 | A record ends where its length says | a measure of what parsers take off the front, carried through the combinators; the headers by induction on their number | false as stated; partly proved |
| C150 | What the commands print is what the broker said | injectivity of the JSON of every type, from that of its fields; UTF-8 by arithmetic on the bytes of a rune, in both directions | false as stated; partly proved |
| C151 | What is printed is JSON | a reader of JSON as specification and a round trip, by induction on the value; every value printed is plain whatever the bytes | proved |
| C152 | A connection on which nothing comes back is given up | induction on the failing requests; the bytes that are left unread are followed through the histories | false as stated; partly proved |
| C153 | A consumer takes one fetch session of a broker | C113 gives what the broker reads; induction on the fetches | false as stated; partly proved |
| C154 | Only committed messages are handed out | C09 and C113; the specification of what is committed is a function of the log | false as stated; partly proved |
| C155 | A producer that asks for no acknowledgement does not wait for one | the flushes of a run are flushes of its operations (C32); noninterference of the acknowledgements | false as stated; partly proved |
| C156 | Batches are no larger than configured | the size of a request is bounded below by that of its record batch (C32) | false as stated; partly proved |
| C157 | A partition in trouble does not stop the others | induction on the brokers asked and on the number of attempts | false as stated; partly proved |
| C158 | A key goes where Kafka's producers put it | C36; a list of keys is computed for each number of partitions | false as stated; partly proved |
| C159 | Messages carry the time their topic says | C05: the messages delivered from an arbitrary batch | false as stated; partly proved |

## Findings

Statements that are false of the code, each with a machine-checked counterexample (theorems `Cxx_..._refuted`):

* C01: REFUTED: the compact nullable string encoder cuts off strings of 2^21-1 bytes and more. Below that, and for all other kinds, the round trip is proved.
* C02: REFUTED: encodeNullableBytes and encodeCompactNullableBytes lose data; the reading side and the non-empty compact case are proved.
* C05: REFUTED in one respect: an absent value is sent as an empty one and an absent key or value is delivered like an empty one. Everything else (keys, values, headers, timestamps, order, all codecs whose decompressor undoes the compressor) is proved.
* C06: A compressor error is a panic (C06_compressor_error_panics_refuted).
* C07: REFUTED: all records of a produced batch carry offset delta 0; proved for batches of one record.
* C08: REFUTED: without a key and with an offset delta of two or more varint bytes the record is malformed; proved otherwise.
* C09: REFUTED: batches compressed with zstd are taken for uncompressed ones (the consumer stalls, hands out garbage or crashes), and control batches are delivered. Proved for codecs none, gzip, snappy, lz4, provided no fixed-size field of the partition header is split between reads (see C12). Proved for any number of topics and partitions if only the last record set is cut; REFUTED otherwise (C09_many_cut_refuted: the decoder runs into the next partition; the consumers of the package ask for one partition at a time).
* C10: REFUTED: later messages missing up to five bytes are delivered with zeros; bodies split between reads are lost. Proved outside these cases.
* C11: REFUTED: a cut compressed batch never makes the size grow, and a batch without wanted records makes it overflow. Proved for uncompressed logs with a wanted first record.
* C12: REFUTED for fetch responses: a length prefix or header field split between reads loses the response. Proved for all other responses under every chunking.
* C13: REFUTED: after a timed-out read the connection stays open and the late answer is taken for the answer to the next request, and all later requests stay as many answers behind. Proved for histories whose answers arrive whole or whose errors close the connection.
* C15: REFUTED when client and broker share no listed version, and for the APIs without a list: version 0 is sent. Proved that otherwise the highest shared version is used.
* C16: REFUTED: a failed reopening leaves a half-opened connection in the handle. Proved for histories in which failed openings leave none.
* C17: REFUTED with SASL: reopening from RequestAndGet locks its own mutex. Proved without SASL, and for fetches.
* C18: REFUTED for a fetch request with several partitions of one topic (the client itself builds one partition per request): the buffer overruns. Framing and header proved for every request and version; no overrun proved within the stated limits.
* C19: REFUTED: Produce version 0, DescribeAcls 0/1, CreateAcls 0/1 and CreatePartitions 0 without assignment do not follow the schema. Proved for all other requests and versions, read back by a schema decoder.
* C20: REFUTED: the header kind stays that of the version first sent. Proved for versions of one header kind.
* C21: REFUTED for Produce 0, DescribeAcls 1, CreateAcls, null offset metadata, successful AlterConfigs, groups with unassigned members. Proved for all other responses of all APIs and versions the client requests (table response_spec).
* C22: REFUTED: the cluster id is read two bytes early; a null cluster id crashes the client.
* C24: REFUTED for SASL handshake, ListGroups, CreateAcls, ListPartitionReassignments, top-level fetch errors; three error reports crash without a message. Proved for all other APIs, codes and positions.
* C25: REFUTED: an empty response crashes the client for every API. Wrong lengths and unknown APIs are rejected with an error.
* C26: REFUTED: results after the first are copies of the first (Produce, AlterConfigs, IncrementalAlterConfigs) or misread (CreatePartitions 0/1, DeleteAcls 0/1). Proved for one result, and for every number in the other APIs (C21_responses_partial).
* C29: REFUTED: a topic without subscribers or an undecodable subscription panics the leader; C27_range_assignment shows assignment succeeds otherwise.
* C31: REFUTED: user data is written without its length prefix; without user data the round trip holds (C30_assignment_bytes).
* C33: REFUTED: the error of a flush done by AddMessage, the timer or Close is dropped together with the messages. An explicit Flush reports its error.
* C34: REFUTED: Close keeps the queue, so a late tick or Flush sends the batch a second time. Proved when the queue is empty at Close, or neither happens.
* C35: REFUTED: after Close, or with three refreshes at the wrong moments, AddMessage returns nil for a dropped message. Without Close: proved for keyed messages, and for unkeyed ones with fewer than three interfering refreshes.
* C37: REFUTED for keys, which are not copied. Proved for values.
* C38: REFUTED when the size of the record set is split between two reads: a message that is not in the log is handed out. Proved for every log, cut, error, broken connection and reset when the small header fields are not split.
* C39: REFUTED for overlapping commit calls (the smaller offset is sent last). Proved: every commit is a position reached before and covers only delivered messages; non-decreasing when commit calls do not overlap.
* C40: REFUTED for consumers outside a group consumer: a failed lookup after out-of-range sets the position to -1, which is committed. Proved for group consumers, and otherwise when lookups give no negative offset.
* C41: REFUTED: started from the beginning with a committed offset, a reset goes to the end; a header split can look like an out-of-range error. Proved for positions that came from the log.
* C43: REFUTED: off calm schedules. A commit call that checked the member id before a rejoin sends an empty member id after the rejection, or the new generation with the old member id; closing during the first join can send a leave request without member id. Proved: every join request carries the latest member id on every schedule; on calm schedules (no restart beside a running start, no commit call overlapping a change of identity) every sync, heartbeat, commit and leave carries the latest identity and nothing is committed after a rejection before a new join.
* C44: REFUTED in one point: with two joining loops (restart by the metadata goroutine during the first start) a loop joins again without a new lookup after a coordinator-moved error. Proved on all schedules: success only after join and sync in sequence with the assignment installed, or closed; the lookup proved with one joining loop at a time.
* C45: REFUTED: Close between the sync answer and the start of the partition consumers panics (negative WaitGroup counter); a failing leave request panics; closing before a coordinator was found can panic. Proved: no panic on orderly schedules (Close outside of that window, leave answered).
* C49: REFUTED: a cached handle is never replaced after an address change. Proved for the first lookup of a node, and for clusters whose addresses never change.
* C50: REFUTED: the groups of the bootstrap broker are listed under -1. Proved when the cached handles carry their node ids, which holds in every history if no bootstrap address is advertised.
* C51: REFUTED: deleting topics and leaving a group crash when the request fails. Proved: exactly then; all other calls to the controller report the error.
* C53: REFUTED: a second assignment for a partition is refused, it does not overwrite. Proved: adding a topic twice is refused, assignments stay ordered by partition, one above all earlier ones is kept as given.
* C54: REFUTED: a nil producer configuration has no bootstrap servers and is accepted; magic bytes above 2 are kept. Proved for the checks themselves and configurations given by value or map.
* C55: REFUTED: configurations share the slice of timeouts. Proved for consumers whose slice is their own.
* C56: REFUTED for the unknown operation and permission, which are read back as ANY. Proved for all other values.
* C57: REFUTED for codes 118 and 119 (table entry carries the wrong code). Proved for all other codes.
* C58: REFUTED: second close of broker lists and consumers panics, of group consumers blocks for ever. Proved for both producers.
* C59: REFUTED: Close takes another lock than requests. Proved when requests and closes do not overlap.
* C60: REFUTED: leader -1 without error code gives a producer that panics on its first send. Every other lookup result is a usable handle or an error.
* C61: REFUTED: the refresh goroutine is never stopped and installs an open producer after Close.
* C62: REFUTED: keyed producers are cached with the handle of the first leader.
* C63: REFUTED: the error event precedes the drain; a timeout in the response header leaves the connection in use. Proved for responses without an error event.
* C64: REFUTED: a leader without cached handle whose connection fails crashes the consumer.
* C65: REFUTED: closing while the sync request is unanswered starts the partition consumers afterwards. Proved on orderly schedules.
* C69: REFUTED: timeouts configured per api are overwritten, and fewer than twelve of them make the creation panic. Proved for configurations without per-api timeouts (hypothesis sane: no overflow).
* C70: REFUTED: a reconnect refused by the broker, or an answer without topics, crashes. Proved when neither happens; the leader found is the one in the metadata.
* C72: REFUTED: the controller is never updated. Proved: the one named by the first metadata is asked.
* C73: REFUTED: every refresh that works loses at least one connection for good. Proved: cached handles are closed, lookups of known nodes lose nothing.
* C74: REFUTED: brokers that fail are left out without an error; naming no topic hides all topics. Proved: who is asked about what, and that the result is what was answered.
* C75: REFUTED: results of groups already deleted are dropped when a later one fails. Proved for calls that succeed.
* C76: REFUTED for numbers beyond 32 bits, which wrap around. Proved for all others.
* C77: REFUTED: a consumer without a topic, or with an empty list of partitions for a topic, consumes everything. Proved for all other assignments, orders of calls and failures.
* C78: REFUTED: a close while coordinators are looked up, and a second close, crash; a close during the first lookup does not keep partitions from being started. Proved for one close before or after.
* C79: REFUTED: a group that never committed is shown one more than there are messages; several old style offsets crash. Proved for committed groups.
* C81: REFUTED: a parenthesis crashes. Proved for patterns without characters special to regular expressions.
* C82: REFUTED: -1 is committed when there is no message after the time; partitions that do not exist are skipped. Proved: what is committed is what was reported, for every order.
* C83: REFUTED: the flag is read under another name than declared. Proved: version 2 always.
* C84: REFUTED: assignments are dropped unless the map happens to be traversed in ascending order. Proved: which remain, for every order.
* C85: REFUTED: a blank entry crashes; numbers beyond 32 bits wrap. Proved for lists as described.
* C86: REFUTED: a quote makes the filter match any resource, a backslash another one. Proved for plain names.
* C87: REFUTED for all but three. Proved for these.
* C89: REFUTED for six handlers. Proved for the eleven others.
* C90: REFUTED for three handlers. Proved for the fourteen others.
* C92: REFUTED: DeleteAcls below version 2 with two filters panics, Metadata of all topics panics, compressed batches are read as one wrong record. Proved for everything else.
* C93: REFUTED for CreateAcls: before version 2 the encoder panics on every response without messages, and the tags of results are replaced by those of the response; C93_create_acls_partial says when it works. Proved for the other four responses.
* C94: REFUTED: a message without a value comes back with an empty one. Everything else is proved.
* C95: REFUTED for version 0, whose layout the encoder does not know. Proved for any number of topics and partitions in versions 7 and 10.
* C96: REFUTED: a message is lost when a fetch ends within an uncompressed batch of several messages (offset deltas are all 0). Proved when every batch has one message, and for brokers that number the records, there also with failing requests.
* C97: REFUTED by the finding of C38: when the size of the record set arrives in two reads, an offset beyond undelivered messages is committed. Proved for all histories in which the small fields of fetch responses are not split between reads.
* C99: REFUTED: a mechanism other than PLAIN crashes the client, and with version 0 of the handshake the token is not sent as the broker expects it. Proved for PLAIN with version 1, for users and passwords without zero bytes.
* C101: REFUTED: the leader repeats its metadata request until the answer has no error, and an unknown topic is an error of the whole answer; no member of the group gets partitions.
* C103: REFUTED: an offsets answer without the topic, or with several offsets for the partition, crashes the consumer. Proved for all answers with errors or with the topic and at most one offset.
* C104: REFUTED: operations written as in the help (clusteraction, ...) and names that mean nothing are sent as 0 without an error. Proved for all texts that name a value.
* C105: REFUTED: one assignment that cannot be decoded hides the whole group, without an error. Proved for groups whose assignments are in the layout of the protocol.
* C106: REFUTED: when one broker fails the helper returns nothing and get-pending ends quietly. Proved: what is returned otherwise, and that it never crashes.
* C107: REFUTED: an answer in the old style with several offsets crashes the command. Proved for all other answers.
* C108: REFUTED for ten commands and get-pending, which drop errors. Proved for the other sixteen.
* C109: REFUTED for console-consumer, which ignores printoffset. Proved for the others and for console-consumer with offsets. The JSON form of a message and the signals are not modelled.
* C110: REFUTED: the text in the help of the flag is not JSON and is ignored without an error. Proved for objects of plain texts without white space.
* C111: REFUTED: broker_logger, and alter-configs for a broker, go to the controller; unknown names are sent as 0. Proved: the numbers of the types, and the broker asked by describe-configs.
* C112: REFUTED: a carriage return before the line feed is dropped. Proved for all lines without, and for lines that are too long.
* C113: REFUTED: elections and reassignments are sent without a client id; new partitions without assignments are sent with an empty list instead of null; timeouts from 2^31 on are read as negative. Proved for all other calls and values.
* C114: REFUTED: a leader that is gone is asked for ever; an error of another partition of the topic keeps the old epoch for ever; metadata without a topic crashes the consumer. Proved: the broker asked is the one the metadata names; at most three requests bring nothing while all brokers answer and no partition has an error.
* C115: REFUTED: the coordinator is looked up once; once it moved no commit is accepted and a look-up never ends. Proved while it stays.
* C116: REFUTED: the automatic commit is made when the context ends, before the loop handed out the rest. Proved: a commit made in any state commits the offset behind the last message handed out.
* C117: REFUTED: the transactional id of a produce request and the append time of a produce response ask for the version of a name that is no field, so they are present in every version. Proved for the tags of all structs and for all other fields.
* C118: REFUTED: a file without a certificate in it is not reported. Proved: times, certificates, name and check are those of the settings; missing settings and unreadable files are errors, never a connection without TLS.
* C119: REFUTED: the APIs of the quorum have no name. Proved for all others, that names tell APIs apart, and the list of versions.
* C120: REFUTED: intervals of 0 and below are accepted for metadata, sessions and commits, and intervals over 292 years for flushes; the program crashes. Proved for all others.
* C121: REFUTED: the deadline starts again with every piece; a timeout of 0 leaves the deadline of the request before; a stream whose reader is busy for longer is lost. Proved: a bound from the number of pieces, and that what arrives in time is read.
* C122: REFUTED: values with a slash or empty values cannot be set; offsets without a time are refused; listing without a body has status 400; a null filter crashes; timeouts wrap; the number of partitions is the total; an ACL without a permission is sent as an invalid one. Proved for all operations otherwise.
* C123: REFUTED: looking at the metadata of a topic allows its creation. Proved: GET, HEAD and OPTIONS lead to no other request that changes anything.
* C124: REFUTED: a failed request for offsets shows the negated commit; groups that never committed; several offsets for a partition. Proved otherwise; offsets in order.
* C125: REFUTED: a bool takes no value from the next argument; numbers with a leading zero are octal; an empty value after a letter; the shared flags are refused in front of the command. Proved for all other ways of writing, all commands and all orders.
* C126: REFUTED: reset-offset reads a flag that does not exist; seven flags are read by nothing. Proved for all others and every command line.
* C127: REFUTED: a failed request looks like an empty cluster, an unknown format prints nothing, both with status 0. Proved for the format cat.
* C128: REFUTED: the value is compressed once more instead of decompressed; relative offsets are not added up. Proved: what comes out for every codec function, and that magic 0 would be right with a decompressor.
* C129: REFUTED: the partition consumers are stopped one after the other before the timer starts, and each waits for its fetch; 61 idle partitions or one silent broker exceed any timeout. Proved: a bound from the number of partitions and the read deadline, and the timeout holds if no fetch is out.
* C130: REFUTED: with the default settings 61 idle partitions may take longer than the session. Proved: a bound, and that it is kept with few partitions.
* C131: REFUTED when a session times out while the member still consumes, and when a restart begins before the first start is through. Proved otherwise, for any number of members and rounds. The coordinator is modelled after the protocol; its answers are taken to be valid when they are received.
* C132: REFUTED: a commit under way while the member rejoins carries the new generation and is accepted for a partition of another member. Proved if no commit is under way when the partition consumers are stopped.
* C133: REFUTED: a request that finds its connection closed where a login is needed waits for the lock it holds itself, and everybody who uses the handle with it. Proved otherwise, for any goroutines: no deadlock, and all can finish.
* C135: REFUTED: GetBroker holds the lock of the Brokers while it connects and asks for metadata. Proved: RequestAndGet over a handle nobody else uses waits for its broker only.
* C136: REFUTED: Brokers.Close, a log line of getLeaderBroker and keyed AddMessage use maps without a lock. Proved for the handles of a Brokers otherwise.
* C137: REFUTED for every cluster: producers never close the connections of their broker lists, nor does a partition consumer with its own; connections made for a look-up, and those that fail after they were made, stay open. Proved: the connection to the leader is closed, and all others of consumers that share a broker list.
* C138: REFUTED: every look-up of a producer, and every look-up of an unknown node, leaves one more. Proved: a bound from the nodes, partition consumers and look-ups.
* C139: REFUTED: the goroutine of a producer that looks up its topic runs for ever and starts others; AwaitClose leaves one when its timer comes first; partition consumers made by a late sync keep theirs; a group consumer used again soon after closing has two of each. Proved: flushing goroutines end, AwaitClose in time leaves none, a settled group consumer leaves none.
* C140: REFUTED: the question for the committed offset is repeated for ever after Stop; the leader connection stays open when Stop comes during the look-up or the question for the offset; -1 and -2 are committed. Proved: nothing is fetched after Stop; Consume returns if that question is answered; the rest if Stop comes after Consume returned.
* C141: REFUTED: a filter of groups set to nil is sent as a null array, which no value of the protocol is; a topic named twice to NewDescribeLogDirsRequest is in the request twice. Proved for all other recipes within the limits of the fields.
* C142: REFUTED: a member that takes over before the first commit starts at the end again, and what was written in between is delivered to nobody. Proved: from the first offset that is committed or resumed on nothing is lost.
* C143: REFUTED: a token left in closeChan by AwaitClose ends the next Consume with nothing started; a restart during the first sync starts a partition twice. Proved without those: all are started, once each, and the call comes to its end.
* C144: REFUTED: cut anywhere, the answers of the older formats make the client panic; where counts are varints a missing count is zero, so that a refused reassignment is a success and a list of groups is empty; missing bytes of SaslAuthenticate are zeros. Proved for all decoders with fixed-width counts: no beginning is taken for another answer and nothing behind an answer matters.
* C145: REFUTED: the position 0 of a new consumer is never committed, because 0 is taken for committed from the start; two calls that overlap can leave the coordinator with the older offset while the newer one is taken for committed. Proved: only positions are sent, only stored offsets are taken for committed, and a call that nothing comes between commits all that moved.
* C146: REFUTED: with a broker that keeps uncompressed batches as they are sent, a message that was accepted can be handed out by nobody although the whole log is committed (the offset deltas of C07). Proved for brokers that number the records, and for producers that send the messages one by one.
* C147: REFUTED: sixteen bytes of SaslAuthenticate become 4 GB of zeros, a member can do the same with the user data of its assignment; one resource of AlterConfigs is decoded 2^32-1 times; a tag section that ends early is read on up to 2^64-1 times; every decoder followed asks for 2^31-1 elements on behalf of 22 bytes or fewer, and Read for 4 GB after four bytes. Proved: where none of that occurs a decoded response holds at most two elements or bytes per byte, and when decoding succeeds what was asked for first was there.
* C148: REFUTED: no checksum is ever compared. Proved: whatever checksums batches carry, they are delivered; a value with a changed byte is delivered. What does hold: nothing is delivered of a last batch that the decompressor rejects, and damage to fields nobody reads changes nothing.
* C149: REFUTED: the key of a record may be made of the next record; the end of a record may be delivered as a record in place of the next one; a negative length is accepted; sixteen bytes become any number of headers. Proved for records in the format, and for any bytes: what is taken is taken from the front, and keys, values and header bytes are among it.
* C150: REFUTED: names that are no UTF-8 are printed alike; operations and permissions the client does not know are printed alike, an unknown permission like 0; errors of a consumer that are not codes of the protocol are printed alike by group-consumer and console-consumer; the tagged fields of the header of ACL responses and the raw assignments are hidden. Proved for all 16 printed responses and for messages: if strings are texts and the numbers of ACLs are known, what is printed determines everything else; and every string printed is a text.
* C152: REFUTED: after a timeout, or any error but the end of the stream and a broken pipe, the connection is kept, for any number of failing requests. Proved: the end of the stream and a broken pipe end it, and without SASL the next request is answered on a new one; a fetch ends it whatever the error is.
* C153: REFUTED: every fetch of version 7 or 10 asks for a new session and names none; each takes a slot until none is left. Proved: the session a response names is not kept. The sessions of the broker are a specification, without eviction.
* C154: REFUTED: fetches ask for isolation level 0, and every record of every batch is delivered, whatever its transaction and whatever aborted transactions the response names. Proved for logs without transactions.
* C155: REFUTED: every flush with acks 0 waits for an answer that does not come and ends with the error of the deadline, whether the broker got the messages or not. Proved: the number of acknowledgements is written into the request and changes nothing else. The first part is about all sequences of operations, the waiting about one request on an open connection.
* C156: REFUTED: the setting is read by nothing; messages are counted, their bytes are not. For every size there is a run that puts two messages of that size into one request. Proved: the decision depends on the number of messages only (see C32 for the bound on their number). The lower bound of the size is for requests of version 9 without compression.
* C157: REFUTED: the error of one partition is that of the whole response; as long as it lasts NewProducer does not return, a producer is not renewed, and RequestOffsets fails for every partition of the topic. Proved: responses without errors are not refused; findLeader, used by partition consumers and simple producers, finds the leaders of the other partitions.
* C158: REFUTED: the hash is MurmurHash2 with seed 0, that of Kafka has seed 0x9747b28c and drops the sign bit; for every number of partitions from 2 to 1000 there is a key that goes elsewhere. The hash of Kafka is a specification, checked with its test vectors. With one partition there is no choice.
* C159: REFUTED: bit 3 of the attributes and the latest timestamp are not read; a message of such a batch is handed out with the right time only if the producer wrote the same. Proved for batches without the bit. Record batches (magic 2) only; codecs none, gzip, snappy, lz4, fields not split between reads (C09, C12).

## Simplifications and assumptions

Each definition states its own.  Those that matter most:

* Reading a Go slice expression `payload[a:b]` with `len < b <= cap` succeeds in Go.  The
  payloads of responses are made with exactly their length, so model and code agree there;
  elsewhere the model panics where Go might read the spare capacity.
* `make` never fails for lack of memory (how much is asked for is the subject of C147).
* Compressors and decompressors are Section variables (arbitrary functions); theorems about
  compressed data assume that the decompressor undoes the compressor.
* CRC-32C, MurmurHash2 and varints are computable functions written after the published
  algorithms; Examples check published test values.
* `sort.Slice` is modelled by an insertion sort; statements about its result hold for every
  sorting algorithm (sorted permutation), equal keys aside.
* Go maps are association lists; where a map is iterated the order is an input.
* `TaggedFields` of requests are nil, as no constructor of the client sets them.
* Buffers of the caller are whole heap cells; slices into the middle of another slice are
  not modelled.  Slices in configurations likewise.
* `mapstructure.WeakDecode` (external): sets the fields named and decodes a list into the
  slice already there.
* `strings.ToUpper` on ASCII text only.
* Broker handle: writes succeed or fail as a whole; the answer of the broker arrives in any
  chunks or not at all.  A request that is written is answered in order.
* Group consumer: stopping all partition consumers is one step, waiting for the WaitGroup is
  not modelled; a restart can come at any time, but one at a time (`restartLocker`).
* Partition consumer: the broker's log is a list of batches; an honest answer is a prefix,
  cut anywhere, of the batches from the one holding the requested offset.
* Broker list: calls are atomic (mutex), the response type fits the request (`fits`), a
  panicking decoder is not among the outcomes of a request (that is C25).

## Trusted base

* The Coq 8.16.1 kernel, including `vm_compute`.
* What `Print Assumptions` prints under each theorem in the `T_*.v` files: every one is
  "Closed under the global context".  No axioms are declared.
* `coqchk` lists `Coq.ssr.ssrunder.Under_rel.*`: these are parameters of a module type of
  the standard library that is loaded with `lia`; no theorem depends on them.
* The reading of the Go source: each model definition cites the lines it models and states
  its simplifications.
* The reading of the libraries the code calls, where the model computes what they do: `flag`, `pflag`, `cobra`
  (`Flags.v`), `strconv`, `strings`, `net.JoinHostPort`, `regexp` for plain patterns (`Tools.v`), `mapstructure` (`Settings.v`),
  `encoding/json` on parsed values and the router of the HTTP interface (`HttpApi.v`). Compressors, TLS and hash functions are parameters.
* The reading of the Kafka protocol in `Wire.v`, `RequestSpec.v`, `ResponseSpec.v`.

## Mutation tests

`seeded/LOG.jsonl` records wrong programs made by editing one model definition in a scratch
copy, the theorems that then fail, and the theorems added where only an Example or nothing
failed.  "repair" entries make a definition behave as the property demands: there the
`_refuted` theorem must fail.
