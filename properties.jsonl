{"id": "C01", "title": "Length-prefixed strings and byte strings survive the wire", "statement": "A string, nullable string, compact string, compact nullable string, or compact byte string written by the client and then read back from a buffer in which it is followed by arbitrary further data yields exactly the original value (absent stays absent, empty stays empty), and the reader stops exactly at the first byte after it, as long as the value fits the length field of its kind.", "quantifier": "every value of each of the string kinds within its length field, and every sequence of bytes following it", "why_tests_cant": "Unit tests use a handful of short ASCII values; the claim covers every length (including the 1/2/3-byte varint boundaries and the 16-bit limits) and every trailing context.", "anchors": ["primitive_type_encode.go: encodeString, encodeCompactString, encodeNullableString, encodeCompactNullableString, encodeCompactBytes", "primitive_types_decode.go: nonnullableString, compactString, nullableString, compactNullableString, compactBytes"]}
{"id": "C02", "title": "Nullable byte strings survive the wire", "statement": "A nullable byte string (plain or compact) written by the client and read back yields the original value: absent stays absent, an empty one stays empty, and a non-empty one keeps all its bytes.", "quantifier": "every nullable byte string and every trailing context", "why_tests_cant": "Needs every length and the absent/empty distinction; the existing tests never combine the writer with the reader on absent values.", "anchors": ["primitive_type_encode.go: encodeNullableBytes, encodeCompactNullableBytes", "primitive_types_decode.go: nullableBytes, compactNullableBytes"]}
{"id": "C03", "title": "Variable-length integers survive the wire", "statement": "Every signed 64-bit number written in zig-zag varint form and every unsigned 64-bit number written in uvarint form reads back as itself, whatever follows, consuming exactly the bytes written, and at most ten bytes are ever written.", "quantifier": "all 2^64 signed and 2^64 unsigned values and every trailing context", "why_tests_cant": "The domain has 2^64 values.", "anchors": ["record.go: Record.Encode, DecodeToRecord", "primitive_type_encode.go", "encoding/binary PutVarint/PutUvarint as used there"]}
{"id": "C04", "title": "Tagged fields survive the wire", "statement": "A tagged-field section written by the client is read back as the same list of tags and payloads and the reader stops exactly after it; a message without tagged fields is written as the single byte 0.", "quantifier": "every list of tagged fields and every trailing context", "why_tests_cant": "Ranges over lists of arbitrary length with arbitrary payload sizes.", "anchors": ["tagged_fields.go: TaggedFields.Encode, EncodeTo, DecodeTaggedFields"]}
{"id": "C05", "title": "A produced record is decoded back unchanged by the fetch path", "statement": "A record (key, value, headers, timestamp delta) written by the producer side, inside a record batch sent uncompressed, is delivered by the fetch decoder with the same key, value and headers; absent keys and values stay distinguishable from empty ones as far as the wire format distinguishes them; the order of records in the batch is kept.", "quantifier": "every list of records with every key, value and header content", "why_tests_cant": "Requires all lengths (varint widths), all combinations of absent/empty key and value and arbitrary batch sizes.", "anchors": ["record.go: Record.Encode, RecordBatch.Encode", "fetch_response.go: decodeRecordsMagic2, decodeMessageSet"]}
{"id": "C06", "title": "Record batch framing and checksum", "statement": "Every record batch the producer emits carries a length field equal to the number of bytes that follow it, a record count equal to the number of records, a last-offset-delta of count-1, and a checksum field equal to the CRC-32C of everything after the checksum field.", "quantifier": "every list of records, every attribute/timestamp value and every compressor output", "why_tests_cant": "Quantifies over all batches and all compressor outputs.", "anchors": ["record.go: RecordBatch.Encode", "simple_producer.go: createRecordBatch"]}
{"id": "C07", "title": "Records of one batch get consecutive offsets", "statement": "The i-th record of a batch sent by the producer carries offset delta i, so that a broker or consumer that adds the delta to the base offset gives the n records n distinct consecutive offsets.", "quantifier": "every batch with at least two records", "why_tests_cant": "A claim about all batches; the tests look at encoded bytes of hand-made records, not of what the producer builds.", "anchors": ["simple_producer.go: AddMessage, createRecordBatch", "record.go: Record.Encode"]}
{"id": "C08", "title": "Record encoding is well formed for every offset delta", "statement": "Encoding a record with any offset delta, with or without a key, produces exactly the bytes of the record format: the declared body length equals the body that follows and decoding gives back the same record.", "quantifier": "every record, every 32-bit offset delta", "why_tests_cant": "The misbehaving combination (absent key, delta needing a multi-byte varint) is a corner of a large product domain.", "anchors": ["record.go: Record.Encode, DecodeToRecord"]}
{"id": "C09", "title": "Fetch decoding delivers exactly the complete records at or after the requested offset", "statement": "Given a record-set (any number of magic-2 batches, possibly ending in the middle of a batch), the consumer is handed, in order, exactly those records of the complete prefix whose offset is at or after the requested one, each with base offset plus delta as its offset and base timestamp plus delta as its timestamp, and a trailing incomplete batch never produces a corrupt record.", "quantifier": "every list of batches, every truncation point, every start offset", "why_tests_cant": "Every truncation point of every log is a distinct case.", "anchors": ["fetch_response.go: decodeMessageSet, decodeRecordsMagic2, filterMessage, putMessage"]}
{"id": "C10", "title": "Fetch decoding of old message sets", "statement": "Given a message set of magic 0 or 1 messages (uncompressed), possibly cut anywhere in its last message, the consumer is handed in order exactly the complete messages at or after the requested offset, with key, value, offset and (magic 1) timestamp intact.", "quantifier": "every list of messages, truncation point and start offset", "why_tests_cant": "Every truncation point of every message set is a distinct case.", "anchors": ["fetch_response.go: decodeMessageSetMagic0or1", "message.go"]}
{"id": "C11", "title": "A too small fetch size is reported instead of stalling", "statement": "If the returned record-set is non-empty but contains no complete record at all, the consumer is told so and the next fetch asks for twice as many bytes; consequently for every batch size some later fetch is large enough, and the consumer never loops forever on the same size.", "quantifier": "every record-set without a complete batch and every initial fetch size", "why_tests_cant": "Liveness over an unbounded number of retries.", "anchors": ["fetch_response.go: decodeMessageSet", "simple_consumer.go: consumeMessages"]}
{"id": "C12", "title": "Response framing is independent of how the network splits the stream", "statement": "However the bytes of a sequence of responses are cut into network reads, each request gets exactly the bytes of one response (its length prefix and that many bytes) and the following response is left intact for the next request.", "quantifier": "every sequence of responses and every way of splitting the byte stream into reads", "why_tests_cant": "The set of splittings is exponential in the stream length.", "anchors": ["response.go: defaultReadParser.Read", "broker.go: request"]}
{"id": "C13", "title": "A request gets the response that answers it", "statement": "The response handed to the caller of a request is the broker's answer to that very request, for every history of earlier requests, timeouts and errors on the connection.", "quantifier": "every history of requests, network delays, timeouts and broker errors on one connection", "why_tests_cant": "Depends on the timing history: a late response to an earlier timed-out request has to be in flight.", "anchors": ["broker.go: RequestAndGet, Request, request", "response.go: ReadAndParse"]}
{"id": "C14", "title": "Correlation ids on a connection are consecutive", "statement": "The k-th request sent through a broker handle carries the correlation id k modulo 2^32, so that within any 2^32-1 consecutive requests all ids are distinct.", "quantifier": "every sequence of requests through one broker handle", "why_tests_cant": "Unbounded sequences including the wrap-around.", "anchors": ["broker.go: Broker.Request, requestFetchStreamingly"]}
{"id": "C15", "title": "Negotiated API version is usable by both sides", "statement": "The API version chosen for a request is one the client implements and one within the range announced by the broker, and it is the highest such version; when there is none, the client does not pretend there is.", "quantifier": "every announced version table of the broker and every API", "why_tests_cant": "All version tables of all brokers.", "anchors": ["broker.go: getHighestAvailableAPIVersion", "request.go: availableVersions"]}
{"id": "C16", "title": "No request travels over an unauthenticated connection", "statement": "If SASL is configured, no request other than the version query and the SASL exchange itself is ever written to a connection on which authentication has not succeeded.", "quantifier": "every history of connection attempts, failures, and requests", "why_tests_cant": "Needs a failed handshake followed by another request on the same handle.", "anchors": ["broker.go: createConnAndAuth, ensureOpen, RequestAndGet"]}
{"id": "C17", "title": "A broker handle reconnects after its connection was dropped", "statement": "A request issued on a broker handle whose connection has been closed re-establishes the connection (authenticating again if configured) and completes or fails; it never blocks forever on the client's own locks.", "quantifier": "every configuration (with and without SASL) and every history that ends with a closed connection", "why_tests_cant": "The lock cycle needs SASL plus a dropped connection, which no unit test sets up.", "anchors": ["broker.go: RequestAndGet, ensureOpen, createConnAndAuth, sendSaslAuthenticate"]}
{"id": "C18", "title": "Every request is framed correctly", "statement": "For every request the client can send, the bytes written start with a length field equal to the number of bytes that follow, followed by the API key, version, correlation id and client id of the request, in the header layout the protocol prescribes for that API and version; building it never runs over its own buffer.", "quantifier": "every request of every API with every topic name, partition list, member list and client id", "why_tests_cant": "Each encoder pre-computes its buffer size with a separate function; agreement must hold for all field sizes.", "anchors": ["request.go: RequestHeader.length, EncodeTo, headerVersion", "*_request.go: Encode, Length"]}
{"id": "C19", "title": "Request bodies match the protocol schema", "statement": "For every request the client can send at a version the client negotiates, the body is exactly the protocol's serialisation of the request's fields at that version: metadata, list-offsets, offset commit, offset fetch, find coordinator, join/sync/leave group, heartbeat, describe/list/delete groups, create/delete topics, create partitions, describe/alter configs, fetch, produce, ACLs, SASL.", "quantifier": "every request value of each API at each version the client implements", "why_tests_cant": "All field values and list lengths; the tests compare a few fixed byte strings.", "anchors": ["metadata_request.go", "offset_request.go", "offset_commit_request.go", "offset_fetch_request.go", "findcoordinator_request.go", "joingroup_request.go", "sync_group_request.go", "leave_group_request.go", "heartbeat_request.go", "fetch_request.go", "produce_request.go"]}
{"id": "C20", "title": "Re-sending a request object to another broker re-encodes it for that broker", "statement": "When a request is retried on another broker that negotiated a different version, the header layout used is the one for the version actually sent.", "quantifier": "every pair of negotiated versions of the two brokers", "why_tests_cant": "Needs two brokers with different versions and a failure in between.", "anchors": ["request.go: headerVersion, SetVersion", "brokers.go: Brokers.Request", "broker.go: Request"]}
{"id": "C21", "title": "Responses are decoded to what the broker sent", "statement": "For every response a broker may send at a version the client negotiates, the decoded value contains exactly the transmitted fields (api versions, metadata, find coordinator, join/sync/leave group, heartbeat, offset commit, offset fetch, list offsets, list groups, describe groups, delete groups/topics, create topics/partitions, SASL).", "quantifier": "every response value of each API and version", "why_tests_cant": "All field values and list lengths, including null and empty ones.", "anchors": ["metadata_response.go", "apiversions_response.go", "findcoordinator_response.go", "joingroup_response.go", "sync_group_response.go", "heartbeat_response.go", "offset_response.go", "offset_commit_response.go", "offset_fetch_response.go"]}
{"id": "C22", "title": "Cluster id in metadata is the broker's cluster id", "statement": "The cluster id reported with the metadata is the string sent by the broker, and a broker without cluster id does not crash the client.", "quantifier": "every metadata response of version 4 or 7", "why_tests_cant": "All cluster ids and the null case.", "anchors": ["metadata_response.go: NewMetadataResponse"]}
{"id": "C23", "title": "Metadata is presented sorted and complete", "statement": "Topics in a decoded metadata response are in ascending name order and the partitions of each topic in ascending id order, and they are a permutation of what the broker sent: nothing lost, nothing duplicated.", "quantifier": "every metadata response", "why_tests_cant": "All permutations of topics and partitions.", "anchors": ["metadata_response.go: NewMetadataResponse"]}
{"id": "C24", "title": "A broker-reported error is never mistaken for success", "statement": "If the broker answers a request with a non-zero error code, then the call that sent the request reports an error carrying that code.", "quantifier": "every API, every non-zero error code, and every position of the code in a multi-element response", "why_tests_cant": "Every error code at every position of arbitrarily long response lists.", "anchors": ["*_response.go: Error()", "errorcode.go: getErrorFromErrorCode", "broker.go: RequestAndGet"]}
{"id": "C25", "title": "A corrupt or truncated response never crashes the process", "statement": "Decoding any byte string as a response of any API returns a value or an error; it never panics.", "quantifier": "every byte string and every API and version", "why_tests_cant": "All byte strings.", "anchors": ["response.go: Parse", "*_response.go", "primitive_types_decode.go"]}
{"id": "C26", "title": "Multi-element admin responses keep every element", "statement": "When a response carries results for several resources, topics or partitions (produce, alter-configs, incremental-alter-configs), the i-th decoded result is the i-th transmitted one.", "quantifier": "every response with any number of elements", "why_tests_cant": "The tests use single-element responses.", "anchors": ["produce_response.go", "alter_config_response.go", "incremental_alter_config_response.go", "create_partitions_response.go"]}
{"id": "C27", "title": "Range assignment is a partition of the topic's partitions", "statement": "For every topic some member subscribes to, each partition is assigned to exactly one member, that member subscribes to the topic, each member's share is a contiguous ascending run, shares differ in size by at most one with the larger shares going to the members whose ids sort first.", "quantifier": "every set of members with every subscription and every set of topics and partitions", "why_tests_cant": "All member/topic/partition combinations.", "anchors": ["assign.go: rangeAssignmentStrategy.Assign, assignPartitions"]}
{"id": "C28", "title": "Assignment does not depend on the order in which members or partitions are listed", "statement": "Permuting the member list or a topic's partition list does not change which partitions a member gets.", "quantifier": "every permutation of members and of partitions", "why_tests_cant": "All permutations.", "anchors": ["assign.go: rangeAssignmentStrategy.Assign"]}
{"id": "C29", "title": "Group leader survives topics nobody subscribes to", "statement": "Computing the assignment never crashes the leader, whatever topics appear in the metadata and whatever the members subscribe to.", "quantifier": "every member list and metadata list", "why_tests_cant": "Needs a metadata entry without subscriber.", "anchors": ["assign.go: assignPartitions"]}
{"id": "C30", "title": "Each member receives the assignment computed for it", "statement": "The bytes the leader sends for a member decode, on that member, to exactly the topics and partitions the strategy computed for it (and subscriptions likewise survive the join request).", "quantifier": "every assignment and subscription with names shorter than 65536 bytes", "why_tests_cant": "All assignments.", "anchors": ["group.go: MemberAssignment.Encode, NewMemberAssignment, ProtocolMetadata.Encode, NewProtocolMetadata"]}
{"id": "C31", "title": "User data in assignments survives", "statement": "A member assignment with user data encodes and decodes to itself.", "quantifier": "every member assignment with non-empty user data", "why_tests_cant": "All user data values.", "anchors": ["group.go: MemberAssignment.Encode"]}
{"id": "C32", "title": "Accepted messages reach the broker once, in order, when nothing fails", "statement": "As long as produce requests succeed, after any sequence of AddMessage, Flush, timer flushes and a final Close, the broker has received exactly the accepted messages, each once, in the order they were accepted, and no batch exceeds the configured message count.", "quantifier": "every sequence and interleaving of add, flush, timer and close operations", "why_tests_cant": "All interleavings of API calls with the background flush.", "anchors": ["simple_producer.go: AddMessage, Flush, flush, Close"]}
{"id": "C33", "title": "A failed send is reported to the caller", "statement": "If sending a batch fails, then some call of the caller returns an error or the messages stay queued; an accepted message is not silently lost.", "quantifier": "every sequence of operations and every pattern of send failures", "why_tests_cant": "All failure patterns.", "anchors": ["simple_producer.go: AddMessage, Flush"]}
{"id": "C34", "title": "Nothing is sent after Close", "statement": "After Close has returned, neither a late timer tick nor an explicit Flush sends anything: messages already sent are not sent a second time.", "quantifier": "every interleaving of the timer goroutine, Flush and Close", "why_tests_cant": "The ticker and the close signal race in a select.", "anchors": ["simple_producer.go: Close, Flush, NewSimpleProducer"]}
{"id": "C35", "title": "The multi-partition producer never drops a message silently", "statement": "AddMessage on the multi-partition producer returns nil only if the message was accepted by a partition producer.", "quantifier": "every schedule of metadata refreshes and closes against AddMessage", "why_tests_cant": "The race window with the refresh goroutine cannot be forced by a test.", "anchors": ["producer.go: AddMessage, updateCurrentSimpleProducer, Close"]}
{"id": "C36", "title": "Same key, same partition", "statement": "While the number of partitions stays the same, all messages with equal keys go to the same partition, which is a valid partition index, and the partition is the murmur2 hash of the key modulo the number of partitions.", "quantifier": "every key and every number of partitions, every history of earlier messages", "why_tests_cant": "All keys and histories (a partition producer is created lazily and cached).", "anchors": ["producer.go: getSimpleProducer"]}
{"id": "C37", "title": "Caller may reuse its buffers", "statement": "After AddMessage returns, changing the key or value buffer passed in does not change the message that is eventually sent.", "quantifier": "every history in which the caller mutates a buffer between AddMessage and the flush", "why_tests_cant": "Needs aliasing between caller and queue.", "anchors": ["simple_producer.go: AddMessage"]}
{"id": "C38", "title": "A consumer sees the log in order without gaps or duplicates", "statement": "Between two offset resets, the messages a partition consumer delivers form a contiguous ascending run of the log's messages starting at the starting offset: no message is skipped, repeated or reordered, whatever the sizes of fetch responses, truncations, errors and reconnects in between.", "quantifier": "every log, every sequence of fetch results (including partial batches, batches that begin before the requested offset, and errors)", "why_tests_cant": "All fetch histories.", "anchors": ["simple_consumer.go: consumeLoop, consumeMessages", "fetch_response.go"]}
{"id": "C39", "title": "Committed offset never runs ahead of delivery", "statement": "The offset a partition consumer commits is never larger than one past the last message it has put on the delivery channel, so a consumer restarted from the committed offset does not skip undelivered messages; and commits are non-decreasing between resets.", "quantifier": "every interleaving of delivery, timer commits and explicit commits", "why_tests_cant": "All interleavings.", "anchors": ["simple_consumer.go: CommitOffset, consumeMessages"]}
{"id": "C40", "title": "Only real offsets are committed", "statement": "No commit request ever carries a negative offset.", "quantifier": "every history of consumption, offset lookups (including failing ones), commits and stop", "why_tests_cant": "Needs an out-of-range error followed by a failing offset lookup and a commit in between.", "anchors": ["simple_consumer.go: commitOffset, CommitOffset, consumeMessages", "group_consumer.go: commitOffset"]}
{"id": "C41", "title": "Out-of-range offsets are reset according to the configuration", "statement": "When the broker reports that the offset is out of range, the consumer continues from the beginning of the log if configured to start from the beginning and from the end otherwise.", "quantifier": "every start position (explicit, committed, beginning, end) and configuration", "why_tests_cant": "Combination of committed start position and later truncation of the log.", "anchors": ["simple_consumer.go: Consume, initOffset, getOffset, consumeMessages"]}
{"id": "C42", "title": "Start offset resolution", "statement": "A consumer started with an explicit non-negative offset starts exactly there; started with 'beginning' or 'end' it starts at the committed offset if it has a group with a committed offset, otherwise at the offset the broker reports for beginning or end.", "quantifier": "every start argument, every committed-offset answer, every offset answer and number of transient failures", "why_tests_cant": "All combinations of answers and failures.", "anchors": ["simple_consumer.go: Consume, getCommitedOffet, initOffset"]}
{"id": "C43", "title": "Group requests carry the identity of the latest join", "statement": "Every heartbeat, sync, offset commit and leave request carries the member id and generation obtained by the most recent successful join; after the coordinator rejects the member id the next join asks for a new one and nothing is committed until it got one.", "quantifier": "every history of coordinator answers", "why_tests_cant": "All histories of joins, rejections and rebalances.", "anchors": ["group_consumer.go: join, sync, heartbeat, commitOffset, leave, joinAndSync"]}
{"id": "C44", "title": "Group membership loop ends only joined or closed", "statement": "The join/sync loop returns success only after a join and a sync both succeeded in sequence (with the assignment of that sync installed), or because the consumer was closed; after a coordinator-moved error the coordinator is looked up again before the next join.", "quantifier": "every sequence of coordinator answers and failures", "why_tests_cant": "All answer sequences.", "anchors": ["group_consumer.go: joinAndSync, join, sync, consumeWithoutHeartBeat"]}
{"id": "C45", "title": "Closing a group consumer never crashes", "statement": "Close (or AwaitClose), called at any time, ends without panic.", "quantifier": "every interleaving of Close with joining, syncing and starting the partition consumers", "why_tests_cant": "The window between sync and start of the partition consumers.", "anchors": ["group_consumer.go: AwaitClose, stop, consumeWithoutHeartBeat", "simple_consumer.go: Stop"]}
{"id": "C46", "title": "Metadata change detection", "statement": "The leader's comparison of topic metadata reports 'same' exactly when both lists describe the same topics with the same error codes and the same partitions with the same error codes and leaders; in particular it is an equivalence relation and ignores nothing that changes the assignment.", "quantifier": "every pair of metadata lists", "why_tests_cant": "All pairs.", "anchors": ["group_consumer.go: ifTopicMetadatasSame"]}
{"id": "C47", "title": "Metadata requests fail over", "statement": "A metadata request returns the answer of the first broker that gives one and fails only if every broker failed; a broker-reported error is returned as is.", "quantifier": "every set of brokers, every pattern of failures and every iteration order", "why_tests_cant": "All failure patterns and map iteration orders.", "anchors": ["brokers.go: RequestMetaData, Request"]}
{"id": "C48", "title": "Offset queries ask each partition's leader exactly once", "statement": "An all-partitions offset query sends, for each partition of the topic, exactly one question, to that partition's leader, and returns one answer per partition; a single-partition query asks only that partition's leader.", "quantifier": "every topic metadata and every partition id", "why_tests_cant": "All metadata.", "anchors": ["brokers.go: RequestOffsets"]}
{"id": "C49", "title": "Broker handles follow the cluster metadata", "statement": "A broker handle obtained for a node id connects to the address the most recent metadata gives for that node.", "quantifier": "every history of metadata refreshes and lookups", "why_tests_cant": "Needs an address change between two lookups.", "anchors": ["brokers.go: GetBroker, refreshMetadata, newBrokersFromOne"]}
{"id": "C50", "title": "Group listings are attributed to the right broker", "statement": "The result of listing groups maps every broker's real node id to the groups that broker returned.", "quantifier": "every cluster and bootstrap list", "why_tests_cant": "Depends on which broker is the bootstrap broker.", "anchors": ["client.go: ListGroups", "brokers.go: newBrokersFromOne"]}
{"id": "C51", "title": "Failed administrative calls report errors instead of crashing", "statement": "If the request of a leave-group or delete-topics call fails (network, timeout), the call returns an error.", "quantifier": "every failure of the underlying request", "why_tests_cant": "All failure causes.", "anchors": ["broker.go: requestLeaveGroup", "client.go: DeleteTopics"]}
{"id": "C52", "title": "Offset commit and fetch requests hold one entry per partition", "statement": "After any sequence of additions the request holds each topic once and each partition of it once, with the offset added last.", "quantifier": "every sequence of additions", "why_tests_cant": "All sequences.", "anchors": ["offset_commit_request.go: AddPartiton", "offset_fetch_request.go: AddPartiton"]}
{"id": "C53", "title": "Topic creation requests", "statement": "Adding a topic twice is refused; adding a replica assignment for an existing partition overwrites the earlier one; assignments stay ordered by partition.", "quantifier": "every sequence of additions", "why_tests_cant": "All sequences.", "anchors": ["create_topics_request.go: AddTopic, AddReplicaAssignment"]}
{"id": "C54", "title": "Invalid configurations are rejected, valid ones are kept", "statement": "Consumer and producer configuration checks accept exactly the configurations that satisfy the documented constraints.", "quantifier": "every configuration value", "why_tests_cant": "All configurations.", "anchors": ["config.go: checkValid, createProducerConfig, createConsumerConfig"]}
{"id": "C55", "title": "Consumers do not share configuration", "statement": "Creating a second consumer with different timeouts does not change the timeouts of an existing one.", "quantifier": "every pair of consumers created from configuration maps or defaults", "why_tests_cant": "Aliasing of a shared slice.", "anchors": ["config.go: createConsumerConfig, resetTimeoutMSForEachAPI"]}
{"id": "C56", "title": "ACL enum text forms round-trip", "statement": "Converting an ACL operation, permission, resource or pattern type to text and back gives the same value, and distinct values have distinct texts.", "quantifier": "every value of each enum", "why_tests_cant": "Finite but only partly sampled by tests; includes the unknown value.", "anchors": ["acl_types.go: String, UnmarshalText, MarshalText"]}
{"id": "C57", "title": "Error codes map to errors one-to-one", "statement": "Code 0 means success, every other code means an error; for every code of the table the error carries exactly that code, and retriable is reported exactly for the protocol's retriable codes.", "quantifier": "every 16-bit code", "why_tests_cant": "Only a few codes are sampled by tests.", "anchors": ["errorcode.go"]}
{"id": "C58", "title": "Repeated close is harmless", "statement": "Calling Close a second time on any client object (producer, brokers, group consumer) is harmless.", "quantifier": "every object and every history", "why_tests_cant": "Histories with two closes, possibly from different goroutines.", "anchors": ["brokers.go: Close", "simple_producer.go: Close", "group_consumer.go: AwaitClose"]}
{"id": "C59", "title": "Closing a handle beside a request", "statement": "Closing a broker handle while a request is in flight on it makes the request fail with an error; it never crashes the program.", "quantifier": "every interleaving of Close with the steps of a request", "why_tests_cant": "Needs a Close at an exact moment within a request.", "anchors": ["broker.go: Close, RequestAndGet, request, ensureOpen", "response.go: Read"]}
{"id": "C60", "title": "A partition without leader is reported", "statement": "Creating a producer for a partition that has no leader returns an error; a producer that was created can send.", "quantifier": "every answer of the leader lookup", "why_tests_cant": "Needs a cluster in the middle of an election.", "anchors": ["simple_producer.go: createLeader, NewSimpleProducer", "brokers.go: findLeader"]}
{"id": "C61", "title": "A closed multi-partition producer stays closed", "statement": "After Close returned, the multi-partition producer accepts no message.", "quantifier": "every schedule of the refresh goroutine against Close and AddMessage", "why_tests_cant": "The refresh fires once per interval.", "anchors": ["producer.go: Close, NewProducer, updateCurrentSimpleProducer"]}
{"id": "C62", "title": "Keyed messages follow the leader", "statement": "When the leader of a partition moves and the metadata were refreshed, messages with a key of that partition go to the new leader.", "quantifier": "every history of refreshes and messages", "why_tests_cant": "Needs a leader change between two messages.", "anchors": ["producer.go: getSimpleProducer"]}
{"id": "C63", "title": "A fetch response is consumed before the next is read", "statement": "When the consumer sends its next fetch on a connection, nothing of the previous fetch response is left to be read on it.", "quantifier": "every response, error and read boundary", "why_tests_cant": "Depends on how the decoder goroutine is scheduled against the fetch loop, and on timeouts inside a header.", "anchors": ["fetch_response.go: streamDecode", "simple_consumer.go: consumeLoop, consumeMessages"]}
{"id": "C64", "title": "An unreachable leader is retried", "statement": "When the leader of a partition cannot be found or connected, the consumer retries; it never crashes.", "quantifier": "every answer of the leader lookup and connection attempt", "why_tests_cant": "Needs a leader that appears in the metadata but refuses connections.", "anchors": ["simple_consumer.go: getLeaderBroker, Consume, consumeMessages"]}
{"id": "C65", "title": "A closed group consumer starts nothing", "statement": "Once Close of a group consumer was called, no partition consumer is started any more.", "quantifier": "every interleaving of Close with joining, syncing and starting the partition consumers", "why_tests_cant": "Needs a Close while a sync request is on its way.", "anchors": ["group_consumer.go: AwaitClose, joinAndSync, consumeWithoutHeartBeat"]}
{"id": "C66", "title": "Listing requests name every partition once", "statement": "A log directory request and a reassignment listing request hold every added topic and partition exactly once and nothing else.", "quantifier": "every sequence of AddTopicPartition/AddTP calls", "why_tests_cant": "Duplicates need repeated calls in a particular order.", "anchors": ["describe_logdirs_request.go: AddTopicPartition", "list_partition_reassignments_request.go: AddTP"]}
{"id": "C67", "title": "Config change requests keep one value per name", "statement": "An (incremental) alter configs request holds for every resource and config name exactly the value added first; an addition is refused exactly if it names another value for the same resource and name.", "quantifier": "every sequence of AddConfig calls", "why_tests_cant": "Needs several resources sharing names.", "anchors": ["alter_config_request.go: AddConfig", "incremental_alter_config_request.go: AddConfig"]}
{"id": "C68", "title": "Leader election and reassignment requests keep every addition", "statement": "These requests hold each added topic once, with all its additions in the order they were made.", "quantifier": "every sequence of Add/AddAssignment calls", "why_tests_cant": "Grouping is only wrong for interleaved topics.", "anchors": ["elect_leaders_request.go: Add", "alter_partition_reassignments_request.go: AddAssignment"]}
{"id": "C69", "title": "Request timeouts follow the configuration", "statement": "A consumer's requests have the timeouts its configuration asks for: the ones given per api if given; otherwise a join the session timeout and five seconds, a commit half the session timeout, a fetch the general timeout and the longest time the broker may wait, every other request the general timeout.", "quantifier": "every configuration and api key", "why_tests_cant": "The table of timeouts is only read at the time of a request.", "anchors": ["config.go: createConsumerConfig, resetTimeoutMSForEachAPI", "broker.go: request"]}
{"id": "C70", "title": "Looking up a leader never crashes", "statement": "Looking up the leader of a partition, or its offsets, returns a leader named by the metadata or an error.", "quantifier": "every state of the client and every answer or failure of the brokers", "why_tests_cant": "Needs a reconnect that is refused, or a broker that answers without topics.", "anchors": ["brokers.go: findLeader, RequestOffsets"]}
{"id": "C71", "title": "One connection per broker", "statement": "Once a broker was looked up, every later lookup of the node gives the same handle and opens no connection.", "quantifier": "every history of calls between the two lookups", "why_tests_cant": "All histories of calls.", "anchors": ["brokers.go: GetBroker"]}
{"id": "C72", "title": "Administrative requests go to the current controller", "statement": "A request meant for the controller is sent to the controller the most recent metadata names.", "quantifier": "every history of metadata answers", "why_tests_cant": "Needs a change of controller during the life of a client.", "anchors": ["brokers.go: GetController, refreshMetadata", "client.go: CreatePartitions and the other calls to the controller"]}
{"id": "C73", "title": "Closing a client closes its connections", "statement": "After Close, every connection the client opened for itself is closed.", "quantifier": "every history of calls before Close", "why_tests_cant": "Connections are lost by refreshes only.", "anchors": ["brokers.go: Close, refreshMetadata, newBrokersFromOne", "broker.go: NewBroker"]}
{"id": "C74", "title": "Log directory descriptions cover all replicas", "statement": "Describing log directories asks every broker holding a replica once, about exactly its partitions, and the result has the answer of every one of them, restricted to the topics asked for, or an error.", "quantifier": "every metadata, list of topics and pattern of failures", "why_tests_cant": "All metadata and failures.", "anchors": ["client.go: DescribeLogDirs"]}
{"id": "C75", "title": "Deleting groups reports every group", "statement": "Deleting groups sends each group to its coordinator, in order, and reports the results of all groups that were deleted.", "quantifier": "every list of groups and pattern of failures", "why_tests_cant": "Needs a failure half way.", "anchors": ["client.go: DeleteGroups"]}
{"id": "C76", "title": "Broker configurations are asked of the broker named", "statement": "Describing the configuration of a broker resource asks the broker with that number, or fails.", "quantifier": "every resource name", "why_tests_cant": "Numbers beyond 32 bits.", "anchors": ["client.go: DescribeConfigs"]}
{"id": "C77", "title": "A consumer of topics consumes exactly what was asked", "statement": "When Consume of a consumer of topics returns without an error, it has started exactly the partitions asked for (all partitions of the topics subscribed to, or the partitions assigned), each once, from the beginning or the end as configured.", "quantifier": "every order of calls and pattern of failures of metadata requests and coordinator lookups", "why_tests_cant": "All interleavings of Assign, Subscribe and Consume with failures.", "anchors": ["consumer.go: Consume, Assign, Subscribe", "simple_consumer.go: Consume"]}
{"id": "C78", "title": "Closing a consumer of topics", "statement": "AwaitClose may be called at any time and repeatedly without a crash, and no partition is started after it.", "quantifier": "every interleaving of Consume and AwaitClose", "why_tests_cant": "Needs a close in the middle of Consume.", "anchors": ["consumer.go: AwaitClose, stop, Consume", "simple_consumer.go: Stop"]}
{"id": "C79", "title": "Lag is the number of messages not consumed", "statement": "For every partition of the topic, get-pending shows the end offset, the committed offset, and their difference, the number of messages the group has not consumed.", "quantifier": "every set of answers of the brokers", "why_tests_cant": "All answers, among them groups that never committed.", "anchors": ["command/healer/cmd/get-pending.go: getPending, getOffset, getCommittedOffset, getPartitions"]}
{"id": "C80", "title": "Totals add up", "statement": "The TOTAL line of get-pending has the 64 bit sums of the columns.", "quantifier": "every set of answers of the brokers", "why_tests_cant": "All answers.", "anchors": ["command/healer/cmd/get-pending.go: getPending"]}
{"id": "C81", "title": "Group patterns select matching groups", "statement": "A group argument with stars selects exactly the groups that match it, a star standing for any text and everything else for itself.", "quantifier": "every pattern and list of groups", "why_tests_cant": "All patterns, among them characters special to regular expressions.", "anchors": ["command/healer/cmd/get-pending.go: getGroups"]}
{"id": "C82", "title": "Resetting offsets commits what was asked", "statement": "reset-offset commits, for exactly the partitions named (all if none is), the offset the broker reports for the time given, or fails.", "quantifier": "every set of answers, selection and order of map traversal", "why_tests_cant": "All answers and orders.", "anchors": ["command/healer/cmd/reset-offset.go", "offset_commit_request.go: AddPartiton"]}
{"id": "C83", "title": "The storage flag is honoured", "statement": "reset-offset with offsets.storage=zookeeper commits with version 0, otherwise with version 2.", "quantifier": "every value of the flag", "why_tests_cant": "Compares the name declared with the name read.", "anchors": ["command/healer/cmd/reset-offset.go"]}
{"id": "C84", "title": "A replica assignment is sent in full", "statement": "create-topic with a replica assignment sends the replicas written for every partition.", "quantifier": "every assignment and order of map traversal", "why_tests_cant": "Go does not fix the order of map traversal.", "anchors": ["command/healer/cmd/create-topic.go", "create_topics_request.go: AddReplicaAssignment"]}
{"id": "C85", "title": "Partition assignments are understood", "statement": "create-partitions takes the brokers written for every new partition, or reports an error.", "quantifier": "every text", "why_tests_cant": "All texts.", "anchors": ["command/healer/cmd/create-partitions.go: genPartitionAssignments"]}
{"id": "C86", "title": "ACL commands act on the resource named", "statement": "The ACL commands use the resource name given on the command line.", "quantifier": "every name", "why_tests_cant": "All names, among them quotes and backslashes.", "anchors": ["command/healer/cmd/delete-acls.go", "command/healer/cmd/describe-acls.go", "command/healer/cmd/create-acls.go"]}
{"id": "C87", "title": "Timeout arguments are the time waited", "statement": "A command or HTTP request with a timeout waits that long for the answer.", "quantifier": "every command and timeout", "why_tests_cant": "All commands with a timeout.", "anchors": ["command/healer/cmd: commands with a timeout", "command/healer/cmd/apicontrollers: handlers with a timeout", "broker.go: Request"]}
{"id": "C88", "title": "Only the credentials are let through", "statement": "With authentication, an HTTP request is let through if its method is exempt or its header holds the user name and password, and not otherwise.", "quantifier": "every user name, password, method and header", "why_tests_cant": "All headers; base64 is modelled in full.", "anchors": ["command/healer/cmd/api.go: BasicAuth"]}
{"id": "C89", "title": "HTTP requests are answered once", "statement": "Every HTTP request is answered exactly once, with 200 exactly if everything it needed worked, and no handler crashes.", "quantifier": "every handler and pattern of failures", "why_tests_cant": "All patterns of failures.", "anchors": ["command/healer/cmd/apicontrollers: all handlers"]}
{"id": "C90", "title": "HTTP handlers close their connections", "statement": "An HTTP handler closes every client or broker list it opened.", "quantifier": "every handler and pattern of failures", "why_tests_cant": "All patterns of failures.", "anchors": ["command/healer/cmd/apicontrollers: all handlers"]}
{"id": "C91", "title": "Request headers are read back", "statement": "DecodeRequestHeader applied to a request the client sent returns the API key, version, correlation id, client id and header version it was sent with, and leaves the cursor at the first byte of the body.", "quantifier": "every request, version, correlation id and client id", "why_tests_cant": "All request contents and versions.", "anchors": ["request.go:147-170 DecodeRequestHeader", "request.go:107-145 RequestHeader.EncodeTo"]}
{"id": "C92", "title": "Requests are read back by the package's decoders", "statement": "Every request of which the package has a decoder, encoded at a version the client negotiates and decoded, is the request that was encoded, up to fields the version does not have and the difference between absent and empty.", "quantifier": "every content, version and compressor", "why_tests_cant": "All contents, versions and compressors.", "anchors": ["alter_partition_reassignments_request.go:149-219", "create_acls_request.go:112-187", "delete_acls_request.go:135-205", "describe_acls_request.go:67-120", "incremental_alter_config_request.go:164-204", "list_groups_request.go:132-202", "metadata_request.go:75-108", "produce_request.go:154-269", "record.go:305-356 DecodeToRecordBatch"]}
{"id": "C93", "title": "Responses are read back by the package's decoders", "statement": "Every response of which the package has an encoder, encoded at a version that can carry it and decoded, is the response that was encoded, up to the difference between nil and empty.", "quantifier": "every content and version", "why_tests_cant": "All contents and versions.", "anchors": ["alter_partition_reassignments_response.go:35-94 Encode", "create_acls_response.go:86-138 Encode", "delete_acls_response.go:75-253 Encode", "desscribe_acls_response.go:173-251 Encode", "list_groups_response.go:137-228 Encode", "response.go:170-193 ResponseHeader"]}
{"id": "C94", "title": "Message sets are read back", "statement": "MessageSet.Encode fills exactly the Length bytes it reserves, the bytes are those the protocol prescribes for messages of format 0 and 1, and decoding them gives the same messages in the same order.", "quantifier": "every list of uncompressed messages of format 0 or 1", "why_tests_cant": "All messages.", "anchors": ["message.go:49-107 MessageSet.Length, Encode", "message.go:108-230 DecodeToMessageSet"]}
{"id": "C95", "title": "Encoded fetch responses deliver their records", "statement": "A fetch response encoded by FetchResponse.Encode for a version and read by the stream decoder at that version delivers every record of every batch, once and in order, with its offset, timestamp, key, value and headers.", "quantifier": "every topic, partition, batches, codec and supported version", "why_tests_cant": "All contents and versions.", "anchors": ["message_encode.go:9-106 FetchResponse.Encode", "fetch_response.go:60-480 fetchResponseStreamDecoder"]}
{"id": "C96", "title": "What is produced is what is consumed", "statement": "If a producer's requests are answered without error, a consumer that reads the partition from the first of them on and never resets hands out exactly the messages AddMessage accepted, in that order and each once, whatever the sizes of the batches, the cuts of the fetch responses and the failures of the consumer's connections.", "quantifier": "every sequence of producer calls, batch size, codec, message, fetch history", "why_tests_cant": "All interleavings of producer calls under its lock, all fetch answers of an honest broker.", "anchors": ["simple_producer.go:131-248", "produce_request.go:60-152", "fetch_response.go:60-551", "simple_consumer.go:342-505"]}
{"id": "C97", "title": "Nothing committed is lost across restarts", "statement": "Consumers of a group that start from the beginning and resume at an offset one of them committed (or, as long as nothing is committed, at the first offset of the log) together hand out every message of the log up to any committed offset and up to the position of each of them: at least once, whichever commits fail, are lost or overtake one another, and although the log grows meanwhile.", "quantifier": "every number of consumers, in any overlap; every log, fetch history, commit schedule; positions not reset by out-of-range errors", "why_tests_cant": "All histories of crashes, commits and fetches.", "anchors": ["simple_consumer.go:224-274 getCommitedOffet", "simple_consumer.go:297-341 commitOffset", "simple_consumer.go:342-505"]}
{"id": "C98", "title": "Compression names, codes and algorithms agree", "statement": "For every compression name a valid producer configuration has, the code written into batches is Kafka's code for it, and both the compressor chosen for that code and the decompressor the consumer chooses for it belong to the same algorithm; names and codes convert into each other, and nothing else is parsed as a compression type.", "quantifier": "every name, code and attribute bits", "why_tests_cant": "Every code and every string.", "anchors": ["compress_type.go", "compressor.go", "simple_producer.go:82-96", "record.go:266-291", "fetch_response.go:95-130"]}
{"id": "C99", "title": "Credentials reach the broker", "statement": "With SASL configured, the authentication request a broker reads carries exactly the configured user and password in the encoding of the mechanism, in the form that goes with the version of the handshake; a mechanism the client does not support is reported as an error.", "quantifier": "every user, password, mechanism, handshake version", "why_tests_cant": "All strings; brokers of old versions.", "anchors": ["sasl_plain.go", "sasl_authenticate_request.go:30-70", "broker.go:158-189", "broker.go:217-228"]}
{"id": "C100", "title": "A round of a group shares out the partitions", "statement": "When every member of a group (at most 1000 members, a million partitions, topic names within Kafka's limit) joins and syncs with a coordinator that follows the protocol, and the leader's metadata requests succeed at last, then between them the members start a consumer for every partition of the metadata and for each only once, each member only for its own topic, and members of the same topic differ by at most one partition.", "quantifier": "every group, metadata, map order, number of failed metadata requests", "why_tests_cant": "The wire formats, the assignment and the state machine of the members are composed: each is proved alone elsewhere.", "anchors": ["group_consumer.go:97-128", "group_consumer.go:148-260", "assign.go", "broker.go:401-430"]}
{"id": "C101", "title": "An unknown topic does not keep the group waiting", "statement": "If one member of a group subscribes to a topic that does not exist, the other members are still given their partitions.", "quantifier": "every group", "why_tests_cant": "The brokers report the unknown topic within a response that has all the others.", "anchors": ["group_consumer.go:115-123", "brokers.go:223-245", "metadata_response.go"]}
{"id": "C102", "title": "Stop ends a partition consumer", "statement": "After Stop a partition consumer sends no further fetch request and hands out at most the rest of the answer it was working on, in order; it ends as soon as it sees the done context, whatever it was doing.", "quantifier": "every state of the consumer, every interleaving of the two steps of Stop with the rest", "why_tests_cant": "All interleavings.", "anchors": ["simple_consumer.go:276-293 Stop", "simple_consumer.go:400-452 consumeLoop", "simple_consumer.go:454-505 consumeMessages"]}
{"id": "C103", "title": "Looking up the start offset never crashes", "statement": "Whatever the broker answers to the requests for the committed offset and for the first or last offset of the log, the consumer starts or tries again; it never crashes.", "quantifier": "every answer", "why_tests_cant": "Answers with any topics, partitions, offsets and errors.", "anchors": ["simple_consumer.go:194-222", "simple_consumer.go:224-274", "offset_response.go:17-25"]}
{"id": "C104", "title": "Flags of the ACL commands reach the broker", "statement": "The request sent by describe-acls and delete-acls carries the resource type, pattern type, operation and permission named by the flags, and the resource, principal and host unchanged; a text that names nothing is reported.", "quantifier": "every text of the flags", "why_tests_cant": "Names in any case, numbers, misspelled names.", "anchors": ["command/healer/cmd/describe-acls.go:31-72", "command/healer/cmd/delete-acls.go:31-73", "acl_types.go"]}
{"id": "C105", "title": "get-pending shows the owner of every partition", "statement": "For a group, get-pending shows every topic assigned to one of its members, with all partitions read for it, and beside each partition the member that has it, or nothing if none has.", "quantifier": "every group, assignment, map order", "why_tests_cant": "Assignments in the layout of the protocol; and others.", "anchors": ["command/healer/cmd/get-pending.go:101-151", "command/healer/cmd/get-pending.go:211-224", "command/healer/cmd/get-pending.go:235-291"]}
{"id": "C106", "title": "All groups are found, or the failure is reported", "statement": "The groups the helper returns are those of every broker of the metadata, in that order; if one cannot be asked, the program that needed them reports it.", "quantifier": "every cluster, every failure", "why_tests_cant": "Asks the brokers one after the other.", "anchors": ["helper.go:42-80", "broker.go:339-347", "command/healer/cmd/get-pending.go:255-268"]}
{"id": "C107", "title": "get-offsets shows every partition in order", "statement": "get-offsets prints one line for each partition entry of the answers, sorted by partition, with its timestamp and its offset, and reports an error of the requests; it does not crash.", "quantifier": "every answer", "why_tests_cant": "Several brokers answer; new and old style of offsets.", "anchors": ["command/healer/cmd/get-offsets.go:40-68", "offset_response.go:17-25"]}
{"id": "C108", "title": "The exit status tells whether the command worked", "statement": "A command ends with status 0 if and only if all calls it makes succeeded, makes no call behind one that failed, and otherwise ends with status 1.", "quantifier": "every command, every pattern of failures", "why_tests_cant": "The status is what scripts rely on.", "anchors": ["command/healer/cmd/root.go:20-25", "command/healer/cmd"]}
{"id": "C109", "title": "The printing consumers print the messages asked for", "statement": "simple-consumer, group-consumer and console-consumer print the messages that arrive, in order, up to the number asked for and below the offset asked for, in the form asked for, and then end.", "quantifier": "every sequence of messages, limit, offset, form", "why_tests_cant": "Limits of 0 and below; all flags.", "anchors": ["command/healer/cmd/simple-consumer.go:80-104", "command/healer/cmd/console-consumer.go:79-99", "command/healer/cmd/group-consumer.go:77-98"]}
{"id": "C110", "title": "Settings given on the command line are used", "statement": "Settings given as a JSON object go before those of the other flags, the last value of a key counts, all others are kept; a text that is no such object is reported.", "quantifier": "every object of plain texts, every base", "why_tests_cant": "Also the text shown in the help.", "anchors": ["command/healer/cmd/console-consumer.go:22-54", "command/healer/cmd/simple-producer.go:24-48", "command/healer/cmd/group-consumer.go:25-61"]}
{"id": "C111", "title": "Configuration requests name the right type and go to the right broker", "statement": "describe-configs and alter-configs send the number of the resource type named, what is about a broker goes to that broker, and a name that is no type is reported.", "quantifier": "every type and name", "why_tests_cant": "Broker configurations are only known to the broker itself.", "anchors": ["describe_configs_request.go:6-17", "client.go:357-381", "command/healer/cmd/alter-configs.go:47-56"]}
{"id": "C112", "title": "The producers send every line", "statement": "The console producers hand every line read to the producer, unchanged and in order, however the input is cut into reads; a line that is too long is reported after those before it were sent.", "quantifier": "every input, every way the reads cut it", "why_tests_cant": "Lines up to the limit of the scanner; last line without line feed.", "anchors": ["command/healer/cmd/simple-producer.go:56-66", "command/healer/cmd/console-producer.go:52-62", "simple_producer.go:139-140"]}
{"id": "C113", "title": "The request a call sends asks for what the caller asked", "statement": "For every call that sends a request, a broker that follows the protocol reads from the bytes sent the API of the call, the negotiated version, the correlation id, the client id and exactly the values the caller gave.", "quantifier": "every call, every argument, every version, every order in which a map is walked", "why_tests_cant": "Duplicate topics and partitions; nil and empty arguments; timeouts.", "anchors": ["request.go:62-69", "offset_request.go:19-42", "create_partitions_request.go:18-29", "elect_leaders_request.go:19-27", "alter_partition_reassignments_request.go:18-24", "client.go:183-345"]}
{"id": "C114", "title": "A consumer goes on after its leader moved", "statement": "Once the metadata names a leader that answers, a consumer asks that leader, with the epoch of the partition, after a bounded number of requests that bring nothing.", "quantifier": "every world, every state of the consumer, every run", "why_tests_cant": "The old leader may still answer, or be gone; other partitions may have errors.", "anchors": ["simple_consumer.go:47-129", "simple_consumer.go:400-505", "brokers.go:297-311"]}
{"id": "C115", "title": "A consumer follows its coordinator", "statement": "Commits and look-ups of a consumer that is in a group without being a member succeed while the group has a coordinator that answers.", "quantifier": "every sequence of worlds", "why_tests_cant": "The coordinator of a group may move.", "anchors": ["simple_consumer.go:74-91", "simple_consumer.go:130-144", "simple_consumer.go:224-274", "simple_consumer.go:296-319"]}
{"id": "C116", "title": "The last commit covers what was handed out", "statement": "When a consumer that commits has ended, the offset behind the last message it handed out is committed.", "quantifier": "every run", "why_tests_cant": "The commit, the end of the loop and the last messages may come in any order.", "anchors": ["simple_consumer.go:276-293", "simple_consumer.go:323-338", "simple_consumer.go:380-393"]}
{"id": "C117", "title": "Fields are present in the versions their tags say", "statement": "The version in the tag of a field of a struct is the first version the field is written and read in, and that is the version Kafka names.", "quantifier": "every struct, every version", "why_tests_cant": "Fields without tags; names that are no fields.", "anchors": ["healer_tags.go:9-25", "list_groups_request.go:10-110", "list_groups_response.go:12-110", "produce_request.go:24-43", "produce_response.go:15-98"]}
{"id": "C118", "title": "Connections are made as configured", "statement": "Every connection of a consumer or producer has the times of its settings; with TLS it shows and trusts the certificates named, checks the broker as asked and is never made without; settings that cannot be used are reported.", "quantifier": "every configuration, every content of the files, every address", "why_tests_cant": "Missing settings, missing files, files without a certificate.", "anchors": ["broker.go:110-157", "config.go:39-75", "brokers.go:40-65"]}
{"id": "C119", "title": "API names are Kafka's", "statement": "The name of an API key is the one Kafka gives it, different keys have different names, and the list of versions that is logged names every range once.", "quantifier": "every key", "why_tests_cant": "Numbers Kafka does not use.", "anchors": ["apiversions_response.go:8-133", "broker.go:91-99"]}
{"id": "C120", "title": "Accepted intervals do not crash the program", "statement": "The tickers that flush, refresh metadata, send heartbeats and commit have the intervals of the configuration, heartbeats come several times in a session, and no configuration that was accepted makes one of them crash.", "quantifier": "every configuration", "why_tests_cant": "0, negative and very long intervals.", "anchors": ["simple_producer.go:117", "producer.go:70", "group_consumer.go:438", "group_consumer.go:475", "simple_consumer.go:379-381", "config.go:290-310"]}
{"id": "C121", "title": "A request takes no longer than its timeout", "statement": "A request whose response is not there when its timeout is over fails then, and a response that arrives before is read.", "quantifier": "every way in which a response arrives", "why_tests_cant": "Responses in many pieces; timeouts of 0; readers that are slow themselves.", "anchors": ["response.go:45-88", "broker.go:217-236", "broker.go:283-319"]}
{"id": "C122", "title": "HTTP requests ask for what they say", "statement": "A request to the HTTP interface leads to the request to the cluster that its path, its parameters and its body describe, sent to where it belongs, and is answered with success then.", "quantifier": "every operation, every name and value, every order of parameters and members", "why_tests_cant": "Names with reserved characters; missing bodies and parameters; null in lists.", "anchors": ["command/healer/cmd/api.go:80-172", "command/healer/cmd/apicontrollers/topic.go:26-173", "command/healer/cmd/apicontrollers/acl.go:18-108", "command/healer/cmd/apicontrollers/create-partitions.go:25-55"]}
{"id": "C123", "title": "Reading over HTTP changes nothing", "statement": "GET, HEAD and OPTIONS requests, which may be open to everyone, lead to no request that changes the cluster.", "quantifier": "every request", "why_tests_cant": "The flag that lets GET through without a password.", "anchors": ["command/healer/cmd/api.go:32-57", "command/healer/cmd/api.go:106-172", "metadata_request.go:61-71"]}
{"id": "C124", "title": "Lag and offsets over HTTP are right", "statement": "The lag shown for a partition is the number of messages behind the committed offset, and all offsets are shown in the order of partitions.", "quantifier": "every answer of the cluster", "why_tests_cant": "Groups that have not committed; answers that are errors.", "anchors": ["command/healer/cmd/apicontrollers/group.go:79-204", "command/healer/cmd/apicontrollers/topic.go:115-142"]}
{"id": "C125", "title": "Flags mean what the user said", "statement": "A command gets for every flag the last value that was given in any of the ways pflag knows, lists all values given, the default if none was given; wrong flags, numbers and commands are refused with a status that is not 0.", "quantifier": "every command, every list of flags in every order and way of writing", "why_tests_cant": "Bools with a value as the next argument; leading zeros; flags before the command.", "anchors": ["command/healer/main.go:12-21", "command/healer/cmd/root.go:12-54", "command/healer/cmd/reset-offset.go:105-113"]}
{"id": "C126", "title": "Flags that are read exist, flags that exist are read", "statement": "Whatever the arguments, a command that runs finds every flag it reads, with the type it reads; every flag that is documented is read by the command.", "quantifier": "every command line", "why_tests_cant": "Errors of the reads are dropped by many commands.", "anchors": ["command/healer/cmd/reset-offset.go:15-22", "command/healer/cmd/console-consumer.go:93-98", "command/healer/cmd/simple-consumer.go:111-118"]}
{"id": "C127", "title": "get-metadata shows the metadata", "statement": "get-metadata prints a line for every broker and every partition, with the address of the leader, and reports a failure.", "quantifier": "every answer", "why_tests_cant": "Hosts that are IPv6 addresses; failed requests; unknown formats.", "anchors": ["command/healer/cmd/get-metadata.go:15-66", "metadata_response.go:54-56"]}
{"id": "C128", "title": "Compressed messages of the old formats are unpacked", "statement": "A message of magic 0 or 1 whose attributes name a codec holds a compressed message set; the consumer is handed the messages in it, with their offsets, which with magic 1 are relative to that of the last one.", "quantifier": "every message set and codec", "why_tests_cant": "Every nesting of messages; relative offsets.", "anchors": ["message.go:38-48", "message.go:109-185", "fetch_response.go:181-196"]}
{"id": "C129", "title": "Closing takes no longer than its timeout", "statement": "AwaitClose returns when everything has stopped or when the timeout it was given is over, whichever comes first.", "quantifier": "every number of partitions, every state of their fetches, every timeout", "why_tests_cant": "Brokers that do not answer; many idle partitions.", "anchors": ["consumer.go:140-169", "group_consumer.go:372-386", "group_consumer.go:411-434", "simple_consumer.go:277-294", "simple_consumer.go:400-454"]}
{"id": "C130", "title": "A member rejoins within its session", "statement": "A member that learns that it has to rejoin sends its join request before its session times out.", "quantifier": "every number of partitions and every state of their fetches", "why_tests_cant": "Many idle partitions; no heartbeat is sent meanwhile.", "anchors": ["group_consumer.go:307-318", "group_consumer.go:360-386", "group_consumer.go:475-489", "simple_consumer.go:277-294"]}
{"id": "C131", "title": "A partition has one consumer in a group", "statement": "At no time do two members of a group consume the same partition, whatever rounds of joining the group goes through; what a member consumes was given to it in the current generation.", "quantifier": "every number of members, every order of their steps and of the coordinator's", "why_tests_cant": "Members that come, leave, fail and restart; sessions that time out.", "anchors": ["group_consumer.go:170-305", "group_consumer.go:360-434", "group_consumer.go:497-540"]}
{"id": "C132", "title": "Commits come from the consumer of the partition", "statement": "A commit that the coordinator accepts was sent by the member that consumes the partition at that time.", "quantifier": "every number of members, every order of their steps and of the coordinator's", "why_tests_cant": "Commits under way while the group is rearranged.", "anchors": ["group_consumer.go:327-358", "group_consumer.go:360-386", "simple_consumer.go:379-393"]}
{"id": "C133", "title": "Goroutines do not wait for each other for ever", "statement": "Whatever goroutines use producers, consumers, groups and clients at the same time, none of them waits for a lock, a loop or a joining goroutine that is never given up.", "quantifier": "every number of goroutines, every sequence of calls of each and every order of their steps", "why_tests_cant": "Every interleaving; locks taken in functions that call each other.", "anchors": ["broker.go:158-213", "broker.go:239-263", "brokers.go:113-221", "producer.go:82-199", "simple_producer.go:132-248", "group_consumer.go:307-318", "group_consumer.go:360-386"]}
{"id": "C134", "title": "Closing a handle does not wait for the network", "statement": "Closing a handle to a broker proceeds without anything arriving from any broker, whatever other goroutines do with it.", "quantifier": "every number of goroutines, every sequence of calls of each and every order of their steps", "why_tests_cant": "Requests under way over the handle that is closed.", "anchors": ["broker.go:197-207", "broker.go:239-263"]}
{"id": "C135", "title": "A slow broker holds up only those who ask it", "statement": "A goroutine that only needs answers of other brokers is not held up by a broker that does not answer.", "quantifier": "every number of goroutines, every sequence of calls of each and every order of their steps", "why_tests_cant": "Locks held while the network is waited for.", "anchors": ["brokers.go:195-221", "broker.go:239-263"]}
{"id": "C136", "title": "Shared maps are used by one goroutine at a time", "statement": "While one goroutine changes a map of a Brokers or a Producer, no other one reads or changes it.", "quantifier": "every number of goroutines, every sequence of calls of each and every order of their steps", "why_tests_cant": "Go aborts the program when it notices this.", "anchors": ["brokers.go:18-32", "brokers.go:195-221", "producer.go:133-199", "simple_consumer.go:151-178"]}
{"id": "C137", "title": "Closing closes the connections", "statement": "After a producer or a consumer was closed, every connection that was made for it is closed.", "quantifier": "every cluster, every sequence of look-ups and failures before the closing", "why_tests_cant": "Broker lists and handles have different owners; nothing but Close gives a connection back.", "anchors": ["simple_producer.go:37-129", "simple_producer.go:228-248", "producer.go:82-117", "producer.go:188-199", "simple_consumer.go:277-294", "consumer.go:140-169", "group_consumer.go:411-434", "brokers.go:27-60", "brokers.go:113-192"]}
{"id": "C138", "title": "The number of open connections is bounded", "statement": "There is a number, depending on the cluster and the number of partitions only, that the open connections of a producer or a consumer never exceed.", "quantifier": "every cluster, every sequence of look-ups and failures", "why_tests_cant": "Clients that run for a long time look up their topics every few minutes.", "anchors": ["simple_producer.go:69-129", "producer.go:82-117", "brokers.go:113-192", "simple_consumer.go:151-178"]}
{"id": "C139", "title": "Goroutines end after closing", "statement": "After a producer, a consumer or a group consumer was closed, every goroutine it started ends.", "quantifier": "every sequence of look-ups, messages, joins, restarts and failures before the closing, every order of turns after it", "why_tests_cant": "Goroutines that are left over are not seen in the results.", "anchors": ["producer.go:34-79", "producer.go:188-199", "simple_producer.go:69-129", "simple_producer.go:228-248", "consumer.go:140-169", "group_consumer.go:148-171", "group_consumer.go:360-386", "group_consumer.go:411-495", "simple_consumer.go:55-73"]}
{"id": "C140", "title": "A partition consumer can be stopped while it starts", "statement": "However Stop and Consume of a partition consumer are interleaved: after Stop nothing is fetched, Consume returns, the connection to the leader is closed in the end, and only real offsets are committed.", "quantifier": "every interleaving of Consume, the loop, the committing goroutine and Stop; every answer of the network; with and without group and automatic commits", "why_tests_cant": "The window is as long as a look-up of the leader.", "anchors": ["simple_consumer.go:180-294", "simple_consumer.go:297-338", "simple_consumer.go:342-454"]}
{"id": "C141", "title": "Requests put together by the user", "statement": "A request made by a New function and then changed by its setters and its functions that add entries, any number of times in any order, asks a broker for the last value set of every field and for every entry once.", "quantifier": "every recipe of the eleven requests whose functions are exported for this; every version written; every client id and correlation id", "why_tests_cant": "The setters and adders are used by callers outside the package in any order.", "anchors": ["alter_config_request.go:62-108", "incremental_alter_config_request.go:66-115", "list_groups_request.go:19-37", "offset_commit_request.go:27-91", "offset_fetch_request.go:36-79", "create_topics_request.go:131-207", "create_partitions_request.go:18-29", "describe_logdirs_request.go:18-50"]}
{"id": "C142", "title": "Groups that start at the end of a partition", "statement": "A group whose members start at the end of a partition for which nothing is committed delivers every message that was written after the first of them started, however often the partition changes hands.", "quantifier": "every log and every growth of it; every history of members that follow one another on a partition; every outcome of commits", "why_tests_cant": "Members join and leave in the first seconds of a group, and auto.offset.reset is latest by default.", "anchors": ["simple_consumer.go:180-203", "simple_consumer.go:224-274", "simple_consumer.go:342-398", "group_consumer.go:524-537"]}
{"id": "C143", "title": "What a member is assigned is consumed", "statement": "The partitions that the answer to a sync names are all started, once each, by the call that received it; this holds for a group consumer that is used again after it was closed, and when the metadata change in between.", "quantifier": "every interleaving of the calls of consumeWithoutHeartBeat, the heartbeats, the metadata goroutine, the commits and the answers of the coordinator", "why_tests_cant": "A partition that is assigned but not consumed is read by nobody.", "anchors": ["group_consumer.go:360-435", "group_consumer.go:464-540"]}
{"id": "C144", "title": "A response that ends early", "statement": "A response whose frame is right but whose content ends early is reported as an error: it is never taken for another answer, and the client does not crash.", "quantifier": "every API and version; every response; every position of the cut; everything that may follow a response", "why_tests_cant": "Brokers and proxies of other versions send shorter answers; whatever the decoder makes of them decides what the caller believes.", "anchors": ["response.go:89-151", "sync_group_response.go:23-47", "joingroup_response.go:47-102", "alter_partition_reassignments_response.go:116-174", "list_groups_response.go:92-135", "sasl_authenticate_response.go:21-49", "primitive_types_decode.go:93-102"]}
{"id": "C145", "title": "Committing on demand commits what was consumed", "statement": "CommitOffset of a group consumer sends for each partition the position of its consumer and nothing else; an offset is taken for committed only when the coordinator has stored it; and when all its requests are answered well the coordinator has the position of every consumer.", "quantifier": "every interleaving of calls of CommitOffset, of the committing goroutines, of the moves of the consumers and of the answers", "why_tests_cant": "What the coordinator has is where the next member starts.", "anchors": ["group_consumer.go:320-358", "simple_consumer.go:320-338", "simple_consumer.go:380-392"]}
{"id": "C146", "title": "What is produced reaches the group", "statement": "Every message that a producer was told is accepted and that lies before an offset committed by the group was handed out by one of its consumers, with its own offset, key and value; and nothing else was handed out.", "quantifier": "every run of a producer; every broker; every history of consumers of the group, whatever the network does to their requests", "why_tests_cant": "This is what the users of a queue rely on: producer, broker, fetches, commits and restarts together.", "anchors": ["simple_producer.go:131-248", "simple_consumer.go:320-398", "simple_consumer.go:400-505", "group_consumer.go:327-358"]}
{"id": "C147", "title": "A response takes memory in proportion to its bytes", "statement": "What a response is decoded to holds at most a fixed number of elements and bytes per byte received, and no slice is made for more elements than the bytes received can hold.", "quantifier": "every API and version; every byte string; every count in it", "why_tests_cant": "A count of four bytes in a damaged or hostile answer decides how much memory the process asks for; tests use answers that are as long as they say.", "anchors": ["response.go:44-87", "tagged_fields.go:46-60", "sasl_authenticate_response.go:21-49", "alter_config_response.go:50-76", "group.go:57-100", "*_response.go"]}
{"id": "C148", "title": "Damaged batches are not handed out", "statement": "Of a batch, or of a message of the old formats, whose checksum is not that of its bytes, nothing is delivered; an error is reported instead.", "quantifier": "every record set, every way it arrives, every damage", "why_tests_cant": "The checksum of a batch is there so that a consumer notices what the network, the broker's disk or its memory did to it.", "anchors": ["fetch_response.go:202-283", "fetch_response.go:130-198", "message.go:109-185"]}
{"id": "C149", "title": "A record ends where its length says", "statement": "Whenever a record is decoded, the bytes taken for it are the length it begins with and as many bytes as that length says; otherwise an error is reported.", "quantifier": "every byte string", "why_tests_cant": "Records lie behind one another without separators: a length that is not kept to turns one record into another, and shifts all those behind it.", "anchors": ["record.go:17-28", "record.go:137-179", "fetch_response.go:258-280"]}
{"id": "C150", "title": "What the commands print is what the broker said", "statement": "Two different answers to a command are printed differently: the JSON that create-topic, delete-topics, get-metadata, describe-configs, alter-configs, describe-logdirs, elect-leaders, the reassignment commands, the ACL commands and the group commands print, and that the HTTP interface answers with, determines the response; likewise a message printed by simple-consumer.", "quantifier": "every response of every command, every string of bytes in it, every number; every message", "why_tests_cant": "Scripts act on what is printed; encoding/json leaves fields out, lets one field hide another and replaces bytes without saying so.", "anchors": ["command/healer/cmd/*.go", "command/healer/cmd/apicontrollers/*.go", "*_response.go", "acl_types.go:23-47", "acl_types.go:89-108", "acl_types.go:145-180", "acl_types.go:226-243", "message.go:21-35", "tagged_fields.go:7-12"]}
{"id": "C151", "title": "What is printed is JSON", "statement": "Whatever a response or a message holds, the text a command prints for it as JSON is JSON and is read back as the value that was to be printed; a message is printed on one line; two messages printed with the same text are the same if the keys of their headers are UTF-8.", "quantifier": "every response and message, every byte in their strings, on one line and indented", "why_tests_cant": "Topic names, keys and error messages may hold quotation marks, line ends and bytes that are no text; the next program in a pipe reads one line per message.", "anchors": ["command/healer/cmd/simple-consumer.go:90-96", "command/healer/cmd/group-consumer.go:83-89", "command/healer/cmd/console-consumer.go:81-83", "command/healer/cmd/*.go", "message.go:13-35"]}
{"id": "C152", "title": "A connection on which nothing comes back is given up", "statement": "After a request failed because the network did (an error of the write, an error of the read, nothing before the deadline), the next request on the handle is written on a new connection.", "quantifier": "every error; every number of failures; requests and fetches; with and without SASL", "why_tests_cant": "A broker or a firewall that goes away without a word leaves a connection that is open for ever and never answers; the handle is shared by all who talk to that broker.", "anchors": ["broker.go:197-281", "broker.go:283-318", "broker.go:370-389", "response.go:31-87"]}
{"id": "C153", "title": "A consumer takes one fetch session of a broker", "statement": "However many fetches a consumer sends to a broker, they take at most one of the fetch sessions the broker keeps (KIP-227).", "quantifier": "every consumer; every number of fetches; every version; every state of the broker's sessions", "why_tests_cant": "Sessions are a resource shared by all clients of a broker (1000 slots); a client that takes a new one with every fetch takes them from the others, and nothing in its own behaviour shows it.", "anchors": ["fetch_request.go:31-65", "fetch_request.go:97-110", "fetch_response.go:29-45", "broker.go:370-389"]}
{"id": "C154", "title": "Only committed messages are handed out", "statement": "No message of a transaction that was aborted or has not ended, and no marker of a transaction, is handed out by a consumer.", "quantifier": "every log, every interleaving of transactions in it, every response the broker makes of it", "why_tests_cant": "Whoever writes in transactions relies on aborted messages not being read (KIP-98); tests write without transactions.", "anchors": ["fetch_request.go:31-48", "fetch_request.go:97-102", "fetch_response.go:202-283", "fetch_response.go:417-427"]}
{"id": "C155", "title": "A producer that asks for no acknowledgement does not wait for one", "statement": "With acks 0, to which a broker sends no answer, Flush returns nil if the request was written, without waiting.", "quantifier": "every sequence of operations of a simple producer; every configuration; every behaviour of the network", "why_tests_cant": "acks 0 is a documented setting of Kafka producers and accepted by the configuration; with a mock that answers every request the difference is not seen.", "anchors": ["simple_producer.go:194-225", "broker.go:239-263", "config.go:196"]}
{"id": "C156", "title": "Batches are no larger than configured", "statement": "A produce request that carries more than one message is no larger than batch.size.", "quantifier": "every sequence of operations of a simple producer; every configuration; messages of every size", "why_tests_cant": "A broker refuses batches above its own limit (1 MB by default), and with them all their messages; tests send few and small messages.", "anchors": ["simple_producer.go:131-158", "simple_producer.go:194-225", "config.go:198-199"]}
{"id": "C157", "title": "A partition in trouble does not stop the others", "statement": "While one partition of a topic has an error in the metadata (no leader, say), messages are produced to and offsets are found of its other partitions.", "quantifier": "every topic, every error code, every broker that answers, every number of attempts", "why_tests_cant": "A partition loses its leader whenever brokers fail; the other partitions are not concerned. Test clusters have all their leaders.", "anchors": ["metadata_response.go:30-44", "producer.go:36-117", "brokers.go:223-311"]}
{"id": "C158", "title": "A key goes where Kafka's producers put it", "statement": "The partition of a message with a key is the one Kafka's own producers choose for that key and number of partitions.", "quantifier": "every key, every number of partitions, every history of the producer", "why_tests_cant": "Programs that write the same topic with different clients rely on a key having one partition (order, compaction, joins); a test with one client cannot tell.", "anchors": ["producer.go:132-166"]}
{"id": "C159", "title": "Messages carry the time their topic says", "statement": "A message is handed out with the time its batch defines: that of the append if bit 3 of the attributes is set (LogAppendTime), else that of the batch plus the delta of the record.", "quantifier": "every record batch, every codec, every division of the response into reads", "why_tests_cant": "Topics whose broker sets the time are common where clocks of producers are not trusted; tests use the default, under which producers set it.", "anchors": ["fetch_response.go:222-283"]}
