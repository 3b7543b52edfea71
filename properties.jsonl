{"id": "C01", "title": "Varint round trip", "statement": "Writing any uint32/int32/int64 with the variable-length writer and reading the produced bytes back (with any bytes following them) yields the same value, and the reader stops exactly after the last written byte.", "quantifier": "every value of the integer type, every suffix of following bytes", "why_tests_cant": "2^64 values times unbounded suffixes; tests sample a handful of boundary values.", "anchors": ["components/kafka-protocol-go/pkg/protocol/types/varint/varint.go:WriteUint32,WriteInt32,WriteInt64,ReadUint32,ReadInt32,ReadInt64,AppendInt32,AppendInt64"]}
{"id": "C02", "title": "Varint size agrees with bytes written", "statement": "Uint32Size, Int32Size and Int64Size return exactly the number of bytes the corresponding writer emits, except that Int64Size returns one too many exactly for values whose zigzag form lies in [2^49, 2^56); so a buffer of the reported size always suffices and has at most one byte of slack.", "quantifier": "every value of the integer type", "why_tests_cant": "The property fails only in one 2^49..2^56 window of the 64-bit space, which sampled tests miss.", "anchors": ["components/kafka-protocol-go/pkg/protocol/types/varint/varint.go:Uint32Size,Int32Size,Uint64Size,Int64Size"]}
{"id": "C03", "title": "Varint reader is total, bounded and range-checked", "statement": "Reading a varint from any byte string either fails or returns a value that fits the type; it consumes at least one and at most ten bytes, its result depends only on the consumed bytes, and an unterminated or out-of-range encoding is an error.", "quantifier": "every byte string", "why_tests_cant": "Input space is all byte strings, including hostile ones.", "anchors": ["components/kafka-protocol-go/pkg/protocol/types/varint/varint.go:ReadUint32,ReadInt32,ReadInt64"]}
{"id": "C04", "title": "Fixed-width primitives round trip big-endian", "statement": "Writing any int8/int16/uint16/int32/uint32/int64/float64-bits/bool/uuid and reading it back yields the same value, uses exactly the fixed width in bytes, in network (big-endian) byte order; reading from fewer bytes is an error.", "quantifier": "every value, every suffix, every short input", "why_tests_cant": "The value space is 2^64; truncation points are universally quantified.", "anchors": ["components/kafka-protocol-go/pkg/protocol/types/int.go", "components/kafka-protocol-go/pkg/protocol/types/bool.go", "components/kafka-protocol-go/pkg/protocol/types/float.go", "components/kafka-protocol-go/pkg/protocol/types/fields/uuid.go"]}
{"id": "C05", "title": "Slice writer never grows past its capacity", "statement": "Any sequence of Write/InsertAt/Seek operations on a slice writer keeps its length within the fixed capacity; a write either appends all bytes or leaves the buffer unchanged with an error; InsertAt splices the bytes at the offset and keeps everything else in order.", "quantifier": "every operation sequence, every buffer, capacity and payload", "why_tests_cant": "Unbounded operation sequences and buffer sizes.", "anchors": ["components/kafka-protocol-go/pkg/protocol/types/bytes/slicewriter.go:SliceWriter"]}
{"id": "C06", "title": "Chunk reader confines reads to its window", "statement": "A chunk reader (also nested inside another chunk reader) created for n bytes returns exactly the bytes of its window in order, never bytes beyond it, reports EOF after the window, and its Len is the number of unread window bytes. The same holds for runes and WriteTo: every sequence of Read, ReadByte, ReadAt, UnreadByte, Seek, ReadRune, UnreadRune and WriteTo is answered like a specified reader over the window, a window of whole characters is read character by character, and WriteTo hands over exactly the unread bytes. Refuted: runes are read like by a bytes.Reader over the window (a character cut off by the end is EOF though bytes are left, and what is read depends on bytes outside the window; UnreadRune works after EOF); WriteTo leaves in the reader what the writer did not take.", "quantifier": "every underlying input, window size, nesting and sequence of operations; every writer", "why_tests_cant": "Quantifies over all read sequences and nestings.", "anchors": ["components/kafka-protocol-go/pkg/protocol/types/bytes/chunkreader.go:ChunkReader"]}
{"id": "C07", "title": "Kafka string round trip", "statement": "Every string a caller can set on a field (all four encodings: nullable or not, compact or not) is decoded to the same value it was encoded from, consuming exactly the encoded bytes; encoding fails exactly for null where the field is not nullable and for strings longer than 32767 bytes. The only string not representable is the text \"null\": setting it, or receiving it from a peer, means null.", "quantifier": "every string, nullability, encoding and suffix", "why_tests_cant": "All strings of all lengths up to 32767 and all nullability/flexibility combinations.", "anchors": ["components/kafka-protocol-go/pkg/protocol/types/fields/string.go"]}
{"id": "C08", "title": "Kafka bytes round trip", "statement": "Every byte-string field value is decoded to the same value it was encoded from, for all encodings, consuming exactly the encoded bytes, and its reported size equals the encoded length.", "quantifier": "every byte string, nullability, encoding and suffix", "why_tests_cant": "Unbounded byte strings; the agreement of size and encoding must hold for every length.", "anchors": ["components/kafka-protocol-go/pkg/protocol/types/fields/bytes.go"]}
{"id": "C09", "title": "Kafka array round trip", "statement": "Every array field value (primitive or struct items) is decoded to the same list in the same order, nil distinguished from empty, consuming exactly the encoded bytes.", "quantifier": "every array of every length, nullability, encoding and suffix", "why_tests_cant": "Unbounded list length; nested arrays.", "anchors": ["components/kafka-protocol-go/pkg/protocol/types/fields/array.go", "components/kafka-protocol-go/pkg/protocol/types/fields/arrayofstruct.go"]}
{"id": "C10", "title": "Raw tagged fields are written sorted, without duplicates, and round trip", "statement": "Serialising the unknown tagged fields of a message succeeds exactly if the tags are distinct and the lengths fit, emits them in strictly ascending tag order, and reading the bytes back yields exactly those fields, except when the last field's value is empty and nothing follows in the input, which is an error.", "quantifier": "every list of tagged fields and every suffix", "why_tests_cant": "All permutations and sizes of tag lists.", "anchors": ["components/kafka-protocol-go/pkg/protocol/types/fields/taggedfields.go"]}
{"id": "C11", "title": "Reported message size equals the serialised length", "statement": "For every message definition, version and admissible value without compressed records and with distinct unknown tags, the size computed before serialisation suffices for serialisation, which succeeds, and it equals the serialised length, except that it is too large by the excess of C02 for record timestamp deltas in that range.", "quantifier": "every message schema, version and value", "why_tests_cant": "More than 130 generated message types with many versions; values unbounded.", "anchors": ["components/kafka-protocol-go/assets/templates/struct_processor.tmpl", "components/kafka-protocol-go/cmd/gen/main.go", "components/kafka-protocol-go/pkg/request/request.go:Serialize", "components/kafka-protocol-go/pkg/response/response.go:Serialize"]}
{"id": "C12", "title": "Message encode/decode round trip", "statement": "For every message definition, version and value that the definition admits, decoding the encoded bytes gives the value back with fields not carried in that version at their defaults, and consumes exactly the encoded bytes.", "quantifier": "every message schema, version, value and suffix", "why_tests_cant": "Structural induction over arbitrary nested schemas.", "anchors": ["components/kafka-protocol-go/assets/templates/struct_processor.tmpl", "components/kafka-protocol-go/pkg/request/request.go", "components/kafka-protocol-go/pkg/response/response.go"]}
{"id": "C13", "title": "Decoding never reads past what it consumes", "statement": "A successful decode of a message depends only on the bytes it consumed: if it left bytes unread, appending more changes neither value nor what is left over except by the appended bytes; if it stopped at the end of the input, then after completing the input with some number of zero bytes (none unless the version is flexible) every continuation is left untouched and the value is the same.", "quantifier": "every schema, version, input and appended suffix", "why_tests_cant": "All inputs and all suffixes.", "anchors": ["components/kafka-protocol-go/assets/templates/struct_processor.tmpl", "components/kafka-protocol-go/pkg/protocol/types/fields/context.go"]}
{"id": "C14", "title": "Request/response header version tables", "statement": "Every known api key and version maps to the header version the Kafka protocol assigns (flexible request versions use header v2, others v1 except ControlledShutdown v0; flexible responses use v1, others v0, ApiVersions always v0); unknown keys are rejected.", "quantifier": "every api key and version", "why_tests_cant": "Table of 68 keys by all int16 versions.", "anchors": ["components/kafka-protocol-go/pkg/request/header.go", "components/kafka-protocol-go/pkg/response/header.go", "components/kafka-protocol-go/pkg/request/request.go", "components/kafka-protocol-go/pkg/response/response.go"]}
{"id": "C15", "title": "Record round trip", "statement": "Every record (attributes, timestamp delta, offset delta, key, value, headers) can be encoded and decodes to itself, and its length prefix is the length of the remainder, plus one exactly when the zigzag form of the timestamp delta lies in [2^49, 2^56).", "quantifier": "every record", "why_tests_cant": "Key, value, headers unbounded; the length prefix relies on the size functions being exact for every int64.", "anchors": ["components/kafka-protocol-go/pkg/protocol/types/fields/batchrecord.go", "components/kafka-protocol-go/pkg/protocol/types/fields/recordheader.go"]}
{"id": "C16", "title": "Record batch round trip and derived header fields", "statement": "Every uncompressed record batch decodes to itself; the written batch length is the number of bytes after the length field and the written CRC is the CRC-32C of everything after the CRC field.", "quantifier": "every batch of every number of records", "why_tests_cant": "Unbounded number of records; CRC for all content.", "anchors": ["components/kafka-protocol-go/pkg/protocol/types/fields/recordbatch.go"]}
{"id": "C17", "title": "Batch sequence leaves the reader at its declared end", "statement": "Reading the records field of a message consumes exactly the declared length when the area was written by the encoder, so the field that follows is decoded from the right position; for every other content of the declared area, what is left over is nothing, fewer than 17 bytes (a partial batch header), or starts with a batch header whose length field is -12.", "quantifier": "every byte content of the records area and every following field", "why_tests_cant": "Only special leftovers (1..16 trailing bytes, negative batch length) break it.", "anchors": ["components/kafka-protocol-go/pkg/protocol/types/fields/recordbatches.go", "components/kafka-protocol-go/pkg/protocol/types/fields/records.go"]}
{"id": "C18", "title": "A truncated record is reported as an error", "statement": "Reading a record or a record header from a strict prefix of its encoding gives an error or, when the cut falls inside a key or value, an all-zero record (header) with nothing left to read; never any other value.", "quantifier": "every truncation point of every record", "why_tests_cant": "All truncation points of all records.", "anchors": ["components/kafka-protocol-go/pkg/protocol/types/fields/batchrecord.go", "components/kafka-protocol-go/pkg/protocol/types/fields/recordheader.go"]}
{"id": "C19", "title": "Pooled slices satisfy the request", "statement": "A slice obtained from the pool has the requested length and at least the requested capacity, whatever slices were released before.", "quantifier": "every sequence of get/release with any sizes", "why_tests_cant": "Unbounded histories of get/release.", "anchors": ["components/kafka-protocol-go/pkg/pools/pool.go"]}
{"id": "C20", "title": "Resource cache holds only subscribed resources", "statement": "After any sequence of operations there is at most one cached resource per name, and every cached resource was brought by a response while its name was subscribed; a successful add makes precisely the subscribed resources of the response readable and keeps all others; a rejected add changes nothing; a removal removes exactly the named ones. Cached resources stay subscribed as long as no operation takes away a subscription of a cached name, in particular on every state-of-the-world stream, but not on incremental streams or across reconnects.", "quantifier": "every history of cache operations and every response content", "why_tests_cant": "Unbounded histories.", "anchors": ["pkg/ads/common.go:resourceCache"]}
{"id": "C21", "title": "State-of-the-world replacement is exact", "statement": "After a successfully applied state-of-the-world response for clusters, listeners or name tables the cache of that type holds exactly the resources of that response; for endpoints and routes the subscribed resources the response carries are stored and those it does not mention are kept.", "quantifier": "every prior cache state and every response", "why_tests_cant": "All prior states.", "anchors": ["pkg/ads/common.go:SetResources", "pkg/ads/client.go:handleSotWResponse"]}
{"id": "C22", "title": "ACK/NACK protocol", "statement": "Every response of a known type is answered; every accepted one is acknowledged with its own version and nonce; every rejected one is answered with an error detail and, for incremental streams, its nonce, for state-of-the-world streams the last accepted version of that type, but an empty nonce.", "quantifier": "every history of responses over all resource types", "why_tests_cant": "Interleaved histories over several types.", "anchors": ["pkg/ads/client.go:ack,nack,handleStreamReceive"]}
{"id": "C23", "title": "A rejected discovery response has no effect", "statement": "When a discovery response is rejected, nothing served to API users and no subscription changes if it is an incremental response of another type than name table (after a first response of that type), or a state-of-the-world name table; a rejected state-of-the-world response for endpoints or routes changes no subscription and no subscribed resource. A rejected state-of-the-world response for clusters or listeners, and a rejected incremental name table, empties the cache of that type (and through it the endpoints).", "quantifier": "every cache state and every rejected response", "why_tests_cant": "Failure positions inside a response are universally quantified.", "anchors": ["pkg/ads/client.go:handleStreamReceive,handleSotWResponse,handleDeltaResponse", "pkg/ads/common.go"]}
{"id": "C24", "title": "Derived subscriptions follow the parent resources", "statement": "After every listener (cluster) update is processed, if the cached listeners (clusters) reference any name then the route (endpoint) subscription is exactly the set of names they reference, and a new subscription request, one, is sent only if the set changed; when the last reference disappears the old subscription stays and every further update repeats the request.", "quantifier": "every history of updates", "why_tests_cant": "Unbounded histories of updates.", "anchors": ["pkg/ads/listener.go:onListenersUpdated", "pkg/ads/cluster.go:onClustersUpdated"]}
{"id": "C25", "title": "Host name resolution", "statement": "Resolving a host returns an IP literal unchanged, otherwise the addresses of the first candidate among the name itself and the name completed with each search domain in order that the name table knows; if none is known a not-found error is returned.", "quantifier": "every name table, search list and host", "why_tests_cant": "All name tables and search lists.", "anchors": ["pkg/ads/nametable.go:ResolveHost"]}
{"id": "C26", "title": "Virtual host selection", "statement": "An HTTP destination is matched to the unique virtual host listing the destination (ip:port, ip, host:port, host in that precedence); ambiguity or absence is an error and never an arbitrary choice.", "quantifier": "every route configuration and destination", "why_tests_cant": "All route configurations.", "anchors": ["pkg/ads/api_http_client.go"]}
{"id": "C27", "title": "Watch delivery: when the engine makes progress and what an observer sees", "statement": "An API watch lets the engine make progress as follows. The refresher can always take its next step unless the channel of the watch it notifies is full and that watch has not finished; it is then blocked for good, as long as neither the client is closed nor that watch's context ends, exactly when that watch has received a notification and waits to read the result, is cancelling, is about to end after its current response, or waits in its drain for an element the consumer already took - in every other position the watch unblocks it by its own steps. A watch ends only because its context ended or because it is one-shot and got a response without error. A refresh that finishes has stored the current values of all watched inputs, and a watch that is alone on its input and at rest has delivered the current value. So delivering an update and cancelling a watch can wait for each other for ever, and so can delivering and reading, and an observer whose input is watched a second time can stay on an old value for ever: each of these defects is reachable (refuted theorems).", "quantifier": "every interleaving of updates, registrations, refreshes, observer steps, consumption, context ends and close", "why_tests_cant": "Needs one specific interleaving of three goroutines.", "anchors": ["pkg/ads/api_result.go:apiResultObservable"]}
{"id": "C28", "title": "Load balancing picks only eligible endpoints, in their shares", "statement": "Every load-balancing decision that returns an endpoint returns one of the list that is healthy, for any policy, random draw, statistics and rounding. Random and default policies return none only if no endpoint is eligible (and the client panics if there are endpoints but none is healthy). Least request returns an endpoint with fewest active requests among a random sample of the configured size, if that size is between 1 and the number of endpoints; it panics for a larger size and returns none for 0. Weighted round robin, in float64, returns an endpoint that had at most its percentage of the picks, and no endpoint below its percentage has a smaller count relative to its percentage; it returns none only if every endpoint has had its percentage. Percentages that sum to 100 or more always leave a pick (until the 32-bit counters wrap); those that sum to s < 100 leave none after at most 100n/(100-s) picks. n equal endpoints of one locality get 100/n percent each, rounded half-even; they are returned each exactly once in n consecutive picks for exactly the n whose rounded percentages sum to 100 or more (1, 2, 4-6, 10, 13, 15, 17, 18, 20-22, 25-28, 34-39, 50-66, 100-199); for every other n (3, for instance) the client eventually panics. A weighted cluster choice always selects a cluster of positive weight that had at most its share, if the weights sum to 1..65536.", "quantifier": "every endpoint list, counter state and random draw", "why_tests_cant": "All random draws and list sizes.", "anchors": ["pkg/ads/internal/loadbalancer", "pkg/ads/internal/endpoint", "pkg/ads/internal/cluster"]}
{"id": "C29", "title": "Active request accounting balances", "statement": "As long as an endpoint stays known and every connection has its own close hook, the active request count of the endpoint equals opened minus closed connections and is zero when all are closed; without one of these conditions the count can drift for ever or wrap around to 2^32-1.", "quantifier": "every interleaving of opens and closes, repeated closes included", "why_tests_cant": "All histories, repeated Close.", "anchors": ["pkg/network", "pkg/ads/internal/endpoint", "pkg/istio/discovery"]}
{"id": "C30", "title": "Pool capacity bound and exclusive hand-out", "statement": "Under every schedule a connection pool never keeps more idle connections than its capacity and loses none; as long as every user closes its pooled connection at most once no raw connection is ever held by two users or both held and idle; an idle timer never closes a connection in use if no release timed out. A second Close hands a connection to two users, a timer that fires during a release closes a connection in use, and a closed idle connection can be handed out.", "quantifier": "every history of get/put/close/evict", "why_tests_cant": "Unbounded histories and concurrency.", "anchors": ["pkg/network/pool/channel.go", "pkg/network/pool/conn.go"]}
{"id": "C31", "title": "Pool operations never deadlock", "statement": "Whenever the pool's mutex is held, its holder releases it within 2*capacity+3 steps of its own, provided no connection is taken out while a purge runs; a connection taken out during a purge can leave the mutex held for ever.", "quantifier": "every interleaving of Get, Put and eviction", "why_tests_cant": "Requires one interleaving between a length read and a receive.", "anchors": ["pkg/network/pool/channel.go:removeClosedConnections,Get"]}
{"id": "C32", "title": "Pool registry", "statement": "In every schedule the registry's pool count equals the number of registered pools when no operation is in progress, a pool is never replaced while registered, add, remove and a close without errors have exactly their effect, and an id stays absent until added. Close after an error of one pool leaves others registered and open, and the clean-up of a closed pool may never start or may remove the live pool that took its id.", "quantifier": "every history of registry operations", "why_tests_cant": "Unbounded histories.", "anchors": ["pkg/network/pool/syncmap_registry.go"]}
{"id": "C33", "title": "Port provider hands out each port at most once", "statement": "For every configured range starting above 0 and every history, no two holders own the same port and every owned port lies in the range; asking for a given port succeeds exactly if it is in the range and free; asking for any port fails exactly if all ports but the last of the range are owned; a released port becomes available again. Exceptions: the last port is never offered, a range starting at 0 offers 0 which means failure, and a session closed twice frees a port someone else owns.", "quantifier": "every range and every history of allocate/release", "why_tests_cant": "Unbounded histories, all ranges.", "anchors": ["pkg/network/tunnel/server/port_provider.go"]}
{"id": "C34", "title": "Tunnel session returns its ports", "statement": "After a tunnel session with distinct port names is closed, with its operations in sequence, every port it ever obtained is free again and the ports of other sessions are not; a repeated port name, a close that overlaps a port request, and a failed listener each leave a port taken for ever.", "quantifier": "every history of port requests in a session", "why_tests_cant": "Histories with repeated names and listener failures.", "anchors": ["pkg/network/tunnel/server/session.go:requestPort,Close"]}
{"id": "C35", "title": "Tunnel control stream requires authentication", "statement": "Under every schedule a control stream is established only after the authenticator accepted the bearer token, for the Kubernetes authenticator and every other one that never rejects without an error; a refused request closes the session; at most one control stream exists as long as requests do not overlap.", "quantifier": "every authenticator outcome and request history", "why_tests_cant": "All authenticator outcomes, including (false, nil error).", "anchors": ["pkg/network/tunnel/server/session.go:openControlStream", "pkg/network/tunnel/auth/k8stoken.go"]}
{"id": "C36", "title": "Tunnelled stream hand-over", "statement": "Each back-channel stream is delivered to exactly the connection request that carries its id, at most once; unknown or expired ids are rejected.", "quantifier": "every history of connection requests, timeouts and streams", "why_tests_cant": "All interleavings of timeouts and arrivals.", "anchors": ["pkg/network/tunnel/server/session.go:RequestConn,openTCPStream"]}
{"id": "C37", "title": "Tunnel client learns about rejections", "statement": "A client whose control stream request the server rejected with a non-empty text gets that text as an error, and an accepted one no error; a rejection of a TCP stream is sent by the server but never reported to the client.", "quantifier": "every server reply", "why_tests_cant": "All replies.", "anchors": ["pkg/network/tunnel/client/session.go"]}
{"id": "C38", "title": "mTLS mode decision", "statement": "In DISABLED mode no connection is TLS, in every other mode than PERMISSIVE all are, in PERMISSIVE mode TLS is used iff the first three bytes are a TLS 1.0-1.3 handshake record header; in every mode the bytes delivered upward are exactly those sent by the peer, whatever the chunking; in PERMISSIVE mode a peer that sends fewer than three bytes is waited for, and is refused if it has closed.", "quantifier": "every byte stream and every chunking", "why_tests_cant": "All byte streams and chunkings.", "anchors": ["pkg/network/listener/unified_tls_listener.go"]}
{"id": "C39", "title": "Multi listener", "statement": "In every interleaving connections accepted by any of the added listeners are delivered at most once each and none is invented or forgotten before close; a duplicate id and an addition after close are refused; after close nothing reopens it and no new Accept returns a connection. Close can panic when an accept is in progress or when called twice, listeners with their own id survive it, and connections still queued are lost.", "quantifier": "every interleaving of add, accept, remove and close", "why_tests_cant": "Interleavings of close with concurrent accepts.", "anchors": ["pkg/network/listener/multi_listener.go"]}
{"id": "C40", "title": "Time to first byte", "statement": "The recorded time-to-first-byte is the time of the first completed read or write since creation or reset, empty or failed ones included, and never changes until a reset; closing runs the hook before, the close and the hook after in this order, stops at the first error, and runs all of it again at every further Close.", "quantifier": "every sequence of reads, writes and closes", "why_tests_cant": "Unbounded histories.", "anchors": ["pkg/network/connection.go", "pkg/network/connection_state.go"]}
{"id": "C41", "title": "String matchers decide their relation", "statement": "exact/prefix/suffix/contains matchers accept a string iff the corresponding relation between the configured value and the string holds (modulo ASCII case, for ASCII text, if case is ignored), however they were built; a regular expression matcher accepts iff the expression matches the whole string, given a leftmost-longest library; parsing 'TYPE:flag:value' gives the matcher of that type, value and flag. The printed form of a matcher never parses back if the value has no colon, and ignoring case changes character classes of regular expressions.", "quantifier": "every configured value, input string and flag", "why_tests_cant": "All strings.", "anchors": ["pkg/util/string_matcher.go"]}
{"id": "C42", "title": "Certificate verification is a conjunction of the configured checks", "statement": "A peer's non-empty certificate chain is accepted iff it verifies and each non-empty pin list and SAN matcher list is satisfied; adding a restriction never accepts more; SAN restrictions from a validation context are enforced whenever at least one of them is valid; converting a context repeatedly accepts the same. An empty chain panics, and SAN restrictions none of which is valid are dropped.", "quantifier": "every configuration and certificate chain", "why_tests_cant": "All configurations.", "anchors": ["pkg/tls/verify/verify.go", "pkg/ads/cert_validation.go"]}
{"id": "C43", "title": "Dotted attribute map", "statement": "Setting a scalar or slice at a path none of whose proper prefixes holds a non-map makes that path return it (a slice over a slice is appended), and paths that are neither a prefix nor an extension of it are unaffected; likewise a flat map at a free path; names with dots are read by their escaped form. Through a prefix that holds a scalar, and with an escaped path, a set value is not found; a slice does not replace a scalar; a negative index panics.", "quantifier": "every map, path and value", "why_tests_cant": "All nested maps and paths.", "anchors": ["pkg/dotn/dotn.go"]}
{"id": "C44", "title": "Filtered TCP stream preserves the byte stream", "statement": "With filters that pass data through unchanged and a peer whose failing reads carry no data, the bytes the application reads are a prefix of the bytes received in the same order and all of them once an empty read reports EOF; nothing is released by a pausing filter before EOF; likewise the bytes sent are a prefix of the bytes written and all of them after a write the filters let pass, as long as no write to the peer fails. EOF can come with data still held, EOF overrides a pause, a failed write leaves a hole, and Close drops paused data.", "quantifier": "every chunking, buffer size and pause/continue schedule", "why_tests_cant": "All chunkings and pause schedules.", "anchors": ["pkg/proxywasm/tcp/conn.go"]}
{"id": "C45", "title": "Header map serialisation for WASM is injective", "statement": "The serialised key/value map decodes (by the proxy-wasm ABI layout) to exactly the same map, so distinct maps have distinct serialisations.", "quantifier": "every map", "why_tests_cant": "Unbounded maps and strings.", "anchors": ["pkg/proxywasm/utils.go:serializeMapToPairs"]}
{"id": "C46", "title": "WASM plugin instance accounting", "statement": "The borrowed count equals hand-outs minus releases (modulo 2^32), in total and per instance; a hand-out returns a live instance whenever there is one; without releases hand-outs are round robin; ensuring n instances one call at a time gives n usable ones; a plugin added with n > 0 instances has one to hand out, one added with the default settings has none; a release makes the round robin skip an instance, and overlapping calls create too many instances or make a hand-out panic.", "quantifier": "every history of get/release/resize", "why_tests_cant": "Unbounded histories.", "anchors": ["pkg/proxywasm/plugin.go", "pkg/proxywasm/plugin_manager.go:Add"]}
{"id": "C47", "title": "WASM metrics identity", "statement": "For every history of fewer than 2^31 definitions, distinct (name, labels) never share an id, the exported value of (name, labels) is the sum of the updates that succeeded, unknown and removed ids are errors, invalid names are refused without effect, and defining the same (name, labels) again gives the same id as long as the name was not defined with other labels or removed in between. Recording a gauge adds to it instead of setting it.", "quantifier": "every history of define/record/increment/remove", "why_tests_cant": "Unbounded histories.", "anchors": ["pkg/proxywasm/metrics.go"]}
{"id": "C48", "title": "Plugin manager operations terminate", "statement": "Under every schedule Get, GetOrCreate and Add return; Delete never returns: it waits for a mutex it holds and blocks every other operation for ever.", "quantifier": "every state and plugin", "why_tests_cant": "Locking behaviour.", "anchors": ["pkg/proxywasm/plugin_manager.go:Delete"]}
{"id": "C49", "title": "WASM VM reference counting", "statement": "In every history the reference count of a VM is the number of its distinct users, and its users are those whose last operation was an acquire; acquiring twice counts once; the last release and a close bring it to zero. A VM is never dropped from the store, whatever its count, and a failed add leaves its user counted.", "quantifier": "every history of acquire/release", "why_tests_cant": "Unbounded histories.", "anchors": ["pkg/proxywasm/vm.go", "pkg/proxywasm/vm_store.go"]}
{"id": "C50", "title": "Filter chain order and early stop", "statement": "Data handed to a filter chain visits the filters in order until the first that pauses or fails and no later filter sees it; the body built from chunks is the concatenation of the chunks up to the first a filter refuses; creating and closing a stream without errors is balanced. A failed stream creation leaks exactly the contexts created before, and a close stops at the first error.", "quantifier": "every chain and every filter decision", "why_tests_cant": "All chains.", "anchors": ["pkg/proxywasm/stream.go"]}
{"id": "C51", "title": "Canonical service name and revision labels", "statement": "The canonical name and revision of a workload are the value of the first present label of the documented precedence, else the workload name or 'latest', and are never empty unless a label has an empty value or the workload no name.", "quantifier": "every label set", "why_tests_cant": "All label sets.", "anchors": ["pkg/k8s/labels"]}
{"id": "C52", "title": "Heimdall token audience round trip", "statement": "The audience generated for an identity parses back to the same identity and distinct identities have distinct audiences.", "quantifier": "every identity without ':'", "why_tests_cant": "All identities.", "anchors": ["components/heimdall/pkg/server/jwt.go"]}
{"id": "C53", "title": "Bifrost port configuration round trip", "statement": "A serialised port configuration service parses back to itself for every namespace name without dots.", "quantifier": "every namespace/name", "why_tests_cant": "All strings.", "anchors": ["components/bifrost"]}
{"id": "C54", "title": "Certificate renewal decision", "statement": "A webhook certificate is renewed iff what is on disk is missing, unparsable, does not match the DNS names or CA, or will not be valid half a year from now; after a check whose renewal works a valid certificate is in place and its CA is what the webhooks get, and it is not renewed again before the renewal window. A certificate not valid yet is accepted, a failed renewal panics when nothing was on disk, and an interrupted write leaves a mixed set.", "quantifier": "every certificate state and time", "why_tests_cant": "All times.", "anchors": ["components/heimdall/pkg/cert"]}
{"id": "C55", "title": "Node identity string", "statement": "The XDS node id is type~ip~pod.namespace~namespace.svc.domain; two workloads whose namespaces have no dot (Kubernetes allows none) and that differ in type, ip, pod, namespace or domain have different ids.", "quantifier": "every environment without '~' in its parts", "why_tests_cant": "All strings.", "anchors": ["pkg/environment/istio.go"]}
{"id": "C56", "title": "Workload certificate cache", "statement": "A cached certificate is returned only while not expired, otherwise a new one is requested; each request for the same key yields the same certificate until expiry.", "quantifier": "every history of requests and times", "why_tests_cant": "All histories.", "anchors": ["pkg/ca/istio/istio_ca.go"]}
{"id": "C57", "title": "Self-signed CA serial numbers are unique", "statement": "Of any two certificates issued by one self-signed CA whose issuing calls do not overlap the later has the larger serial number, in every interleaving with other calls; calls in sequence get consecutive numbers; overlapping calls can get the same one.", "quantifier": "every interleaving of issuing goroutines", "why_tests_cant": "Concurrency.", "anchors": ["pkg/ca/selfsigned"]}
{"id": "C58", "title": "Decoding untrusted bytes never panics", "statement": "For every byte string, decoding a message whose definition has no records field, and every request other than Produce, returns a value or an error; decoding records and record batches can panic.", "quantifier": "all byte strings, all message definitions and versions", "why_tests_cant": "the input space is unbounded; a single crafted count crashes the proxy", "anchors": ["components/kafka-protocol-go/pkg/protocol/types/fields/batchrecord.go: Read", "components/kafka-protocol-go/pkg/protocol/types/fields/recordbatch.go: read", "components/kafka-protocol-go/pkg/protocol/types/fields/array.go: Read"]}
{"id": "C59", "title": "Compressed record batches round trip", "statement": "A record batch written with gzip or snappy decodes to the same batch, given that the compression library decodes what it encodes and that the whole of its output is available to each read (with gzip this is so when every key, value and header field is smaller than 16 KiB; C86 has what happens otherwise); a batch marked lz4 or zstd never decodes to any records.", "quantifier": "all batches, all compression types, all lossless libraries", "why_tests_cant": "ranges over all batches and library behaviours", "anchors": ["components/kafka-protocol-go/pkg/protocol/types/fields/recordbatch.go: read, write, newCompressedRecordsReader", "components/kafka-protocol-go/pkg/serialization/reader.go: ReadByte"]}
{"id": "C60", "title": "Null is rejected for fields that are not nullable", "statement": "Decoding a message of any definition never yields a null string, byte string, records field or array, at any depth, for a field that the version's context does not allow to be null (the text \"null\" of C07 apart), such input is rejected; but the contexts of fields that are not nullable in any version allow null in version 0.", "quantifier": "every field, version and input", "why_tests_cant": "must hold for every field of every message at every version and every input", "anchors": ["components/kafka-protocol-go/pkg/protocol/types/fields/context.go: IsNullableVersion", "components/kafka-protocol-go/assets/templates/struct_processor.tmpl: Context literal"]}
{"id": "C61", "title": "Tunnel client listener close is safe", "statement": "No request, response or close makes an open tunnel client listener panic, and requests and responses for a listener the client no longer knows are ignored; after a close, as long as the client knows the listener, every further close, request and port response panics.", "quantifier": "all interleavings of closes, connection requests and port responses", "why_tests_cant": "the panic needs a message that arrives after the close", "anchors": ["pkg/network/tunnel/client/port.go:Close", "pkg/network/tunnel/client/stream.go:requestConnection,requestPortResponse"]}
{"id": "C62", "title": "SPIFFE identity and cluster name of a workload", "statement": "The SPIFFE id a workload requests certificates for is spiffe://<dns domain>/ns/<namespace>/sa/<service account> and the cluster name it reports is <workload>.<namespace>: workloads (names without '/', namespaces without '.') that differ in one of these differ in the string. The configured trust domain is not used.", "quantifier": "every environment without '/' in domain and namespace (and, for the cluster name, without '.' in the namespace)", "why_tests_cant": "All strings.", "anchors": ["pkg/environment/istio.go:GetSpiffeID", "pkg/environment/istio.go:GetClusterName"]}
{"id": "C63", "title": "Self-signed certificates carry the requested names", "statement": "A certificate issued by the self-signed CA carries every requested e-mail, IP and DNS name under its kind and no other, and the URI if there is at most one; of several URIs only the last. The kind of a name is URI if it contains ://, else e-mail if it contains @, else IP if it parses as one, else DNS.", "quantifier": "every list of names", "why_tests_cant": "All lists.", "anchors": ["pkg/ca/selfsigned/selfsigned.go:GetCertificateWithSigner", "pkg/tls/verify/util.go:GetSANTypeFromSAN"]}
{"id": "C64", "title": "TCP destination cluster", "statement": "An outbound TCP connection to host:port goes to a known upstream cluster that a TCP proxy of the only matching outbound listener names: a listener on one of the host's addresses, else on the wildcard address, whatever the listing order; without weighted clusters it is the one named by the first naming filter of the last chain that names one; a single chain whose first naming filter is weighted decides by least relative load. With several chains the last one decides and the statistics of clusters not used change.", "quantifier": "all listener sets, filter chains, weights, statistics, cluster sets and listing orders", "why_tests_cant": "The candidates come from maps of any size and order.", "anchors": ["pkg/ads/api_tcp_client.go:getTCPClientTargetCluster", "pkg/ads/api_tcp_client.go:getTCPOutboundListener", "pkg/ads/internal/listener/listener.go"]}
{"id": "C65", "title": "Inbound listener properties", "statement": "Properties are reported exactly if no inbound listener has an unusable address range for the port and exactly one inbound listener has a chain for it; they are then that listener's: TLS iff a chain handling it is for TLS, permissive iff another handling it is for plaintext, a required client certificate and the verification data come from one of its TLS chains; if all chains require TLS and client certificates so do the properties. All chains whose range contains the address count, not only the longest match; with several TLS chains the last one's requirement counts.", "quantifier": "all listeners, filter chains, ranges, addresses, ports and listing orders", "why_tests_cant": "All address ranges and chain lists; order of a map.", "anchors": ["pkg/ads/api_listener_properties.go:getListenerProperties", "pkg/ads/api_listener_properties.go:findFilterChain", "pkg/ads/api_listener_properties.go:matchPrefixRanges"]}
{"id": "C66", "title": "Transport socket selection and client TLS", "statement": "Every transport socket used for an endpoint is the cluster's own or one whose match criteria the endpoint's metadata meets; if criteria and metadata have the same fields with string values, as Istio configures them, it is the first such one, else the cluster's own, and TLS, server name and certificate verification follow that socket. Metadata with more fields than the criteria does not match, metadata with other fields or types crashes the client, and so does a TLS socket without validation context.", "quantifier": "all criteria, metadata, sockets and map orders", "why_tests_cant": "All metadata of all shapes.", "anchors": ["pkg/ads/internal/cluster/cluster.go:GetMatchingTransportSockets", "pkg/ads/internal/cluster/cluster.go:UsesTls", "pkg/ads/api_tcp_client.go:getTCPClientPropertiesByHost", "pkg/tls/verify/util.go:SetCertVerifierToTLSConfig"]}
{"id": "C67", "title": "TCP dialer: endpoint and TLS settings", "statement": "Under every interleaving of dials, returned connections, idle closures and cancellations, a dial hands out a connection to the endpoint that discovery named for the address (or to the address itself when discovery knows nothing or fails), secured as some dial to that endpoint asked, hence as this dial asked while discovery's answers do not change.", "quantifier": "all numbers of concurrent dials, discovery answers over time, interleavings, pool closures and cancelled contexts", "why_tests_cant": "The pools are shared between dials: whose settings and whose context a connection gets depends on the schedule.", "anchors": ["pkg/istio/tcp/dialer.go:DialContext", "pkg/pool/syncmap_registry.go:AddPool"]}
{"id": "C68", "title": "HTTP transport: endpoint and TLS settings", "statement": "Under every interleaving of requests on one transport, every request is sent to the endpoint discovery named for it and a mesh TLS connection is always verified with some discovered verification data; when requests do not overlap and discovery's answers do not change it is sent with exactly the server name and verification data discovery asked for that request.", "quantifier": "all numbers of concurrent requests, discovery answers, interleavings and kept connections", "why_tests_cant": "One TLS configuration and one dialer are shared by all requests; a test sees a few schedules.", "anchors": ["pkg/istio/http/transport.go:RoundTrip", "pkg/network/http.go:WrapHTTPTransport", "pkg/istio/istio.go:GetHTTPTransport"]}
{"id": "C69", "title": "Inbound servers enforce the received listener properties", "statement": "GetListenerProperties reports the last response; the server whose call started the running watch of an address enforces, at every moment after its listener exists, the TLS mode, client certificate requirement and verification data of the last properties received since then, and permissive mode without verification before the first.", "quantifier": "all numbers of servers and addresses, response sequences, failures, cancellations and interleavings", "why_tests_cant": "Start of the listener, the watch and responses interleave freely.", "anchors": ["pkg/istio/discovery/xds.go:GetListenerProperties", "pkg/istio/discovery/xds.go:watchForListenerPropertiesResponse", "pkg/istio/istio.go:updateUnifiedListener", "pkg/network/http.go:ServeWithTLSConfig"]}
{"id": "C71", "title": "Bifrost Endpoints objects", "statement": "A reconciliation of the exposed ports, with any pattern of failing API calls, leaves exactly: an Endpoints object for each existing service with exposed ports whose calls succeeded, every unmanaged object, and the managed objects whose deletion failed; if no call fails and the ports of a session are exposed on one address, every managed object serves exactly the exposed ports that a port of the service leads to, on the address of the pod that holds the session. A failed get or put deletes the live object, sessions of one name on two pods are mixed, a second service port on a target is not served, and the result depends on map order.", "quantifier": "all config maps, sessions, ports, services, existing objects, iteration orders and patterns of API failures", "why_tests_cant": "All combinations of objects, failures and map orders.", "anchors": ["components/bifrost/pkg/controllers/endpoints.go:Reconcile", "components/bifrost/pkg/controllers/endpoints.go:getSubset", "components/bifrost/pkg/controllers/endpoints.go:collectPortsBySessionAndService"]}
{"id": "C70", "title": "Kafka filter keeps framing and inspects every message", "statement": "For every connection through the Kafka PII filter with well-formed messages, responses after their requests, and however the two byte streams are cut into chunks and interleaved, as long as no chunk completes a message and ends 1-3 bytes into the next size: every complete request is inspected and leaves the filter in its treated form, every complete response leaves unchanged, both in order, nothing else is emitted, incomplete messages are held back until complete, and each response is checked against the request it answers. A chunk that ends 1-3 bytes into a size switches the filter off for the rest of the connection and passes the messages unredacted.", "quantifier": "all message contents and sizes, chunkings, interleavings of the two directions and numbers of requests in flight", "why_tests_cant": "Every cut of the streams and every interleaving matters; queue compaction depends on the history.", "anchors": ["experimental/kafka-message-pii-filter/main.go:OnDownstreamData", "experimental/kafka-message-pii-filter/main.go:OnUpstreamData", "experimental/kafka-message-pii-filter/main.go:handleKafkaRequestMessage", "experimental/kafka-message-pii-filter/main.go:handleKafkaResponseMessage", "experimental/kafka-message-pii-filter/main.go:enqueueInFlightRequest", "experimental/kafka-message-pii-filter/main.go:nextInFlightRequest"]}
{"id": "C72", "title": "A workload group's access token never expires while Heimdall runs", "statement": "While a WorkloadGroup carries the NASP monitoring label, after every successful reconciliation the secret '<group>-nasp-token' holds a token that was left with at least ten minutes or was issued then for the group's service account, audience and lifetime, so it does not expire within the smaller of ten minutes and that lifetime, whatever fails in between; failures change nothing, no other secret is ever touched, a token with time left is not replaced, and removing the label removes the secret.", "quantifier": "all histories of reconciliations of all groups, API failures, clock values, token contents and lifetimes", "why_tests_cant": "It is a statement about every history of reconciliations and failures and every instant in between.", "anchors": ["components/heimdall/pkg/controllers/workloadgroup.go:Reconcile", "components/heimdall/pkg/controllers/workloadgroup.go:createToken", "components/heimdall/pkg/controllers/workloadgroup.go:deleteToken", "components/heimdall/pkg/predicates/labelselector.go"]}
{"id": "C73", "title": "Heimdall hands configuration only to holders of a token for the group", "statement": "POST /config answers 200 exactly when the Authorization header is two words whose second is a token Kubernetes accepts for the audience of an existing WorkloadGroup, the control plane is found and a CA token is issued; the environment is that group's, the CA token is for the caller's service account, 'default' if the caller is none; everything else is 401, 404 or 500 without data; the client's request is one the server accepts.", "quantifier": "all headers, tokens, review results, groups, settings and control plane states", "why_tests_cant": "All headers and all token review outcomes.", "anchors": ["components/heimdall/pkg/server/server.go:run", "components/heimdall/pkg/server/server.go:Run", "components/heimdall/pkg/server/server.go:getClusterIDFromRegistry", "components/heimdall/pkg/server/jwt.go:AuthenticateToken", "pkg/ca/istio/config.go:GetIstioCAClientConfigFromHeimdall", "pkg/ca/istio/config.go:GetIstioCAClientConfigWithKubeConfig"]}
{"id": "C74", "title": "The pod mutator adds mesh identity without losing anything", "statement": "For every pod the Heimdall webhook mutates, the user's containers, variables, ports, mounts, volumes and labels other than istio.io/rev, topology.istio.io/network and deploymentconfig are kept, the mesh labels, annotations, token and root certificate are added to every container, and the environment the workload reads back is exactly the pod's final labels, container names, owner and mesh settings, whatever order Go visits the label map in and whatever variables the user set; the owner is the Deployment, CronJob or controller the pod's owner references name; overriding an environment with another one makes it equal to the other except for trust domain, TTL and the enabled flag, which are kept.", "quantifier": "all pods, owner references, labels, configurations, map iteration orders and user variables", "why_tests_cant": "All pods and all map iteration orders; the round trip goes through two string encodings.", "anchors": ["components/heimdall/pkg/webhooks/pod_mutator.go:Handle", "components/heimdall/pkg/webhooks/pod_mutator.go:setEnvs", "components/heimdall/pkg/webhooks/pod_mutator.go:setLabels", "components/heimdall/pkg/k8sutil/meta.go:GetDeployMetaFromPod", "pkg/environment/istio.go:GetIstioEnvironment", "pkg/environment/istio.go:Override"]}
{"id": "C75", "title": "Wrapping a TLS configuration presents and records the right certificate", "statement": "For every TLS configuration, hello and history, the handshake with the wrapped configuration presents the certificate the unwrapped one would, and the recorded local certificate is the one presented, with exactly these exceptions: (1) a server with several static certificates of which none is selected by name or by what the client supports gets an empty certificate instead of the first one, and with recording on it panics exactly then; (2) a server with both a GetCertificate callback and static certificates always asks the callback, also without SNI, and a nil answer is final; (3) a client with a GetClientCertificate callback and an acceptable static certificate presents the static one (and still fails when the callback fails); (4) a client none of whose certificates is acceptable to the server panics exactly then, because recording indexes an empty chain; (5) a certificate whose first block does not parse leaves the recorded one as it was. Wrapping twice is the same as wrapping once.", "quantifier": "all TLS configurations, hellos, peers' supported sets, callbacks and earlier recorded certificates", "why_tests_cant": "The selection is a function of the configuration, callbacks and the peer's hello; tests try a few, and the crash needs a peer that supports none of the certificates.", "anchors": ["pkg/network/tls.go:WrapTLSConfig", "pkg/network/connection_state.go:SetLocalCertificate", "pkg/network/dialer.go:DialTLSContext"]}
{"id": "C76", "title": "PII detection masks matches only, whatever the order", "statement": "DetectPII reports a finding exactly when one of its twenty patterns matches somewhere in the text it is given, independently of the order in which the pattern map is visited and of the obfuscate flag. Without obfuscation, or without a finding, the text stays unchanged. With obfuscation the length stays, every changed byte becomes '*' and lies inside a match of a pattern in the text as it was when that pattern was visited (after the first '=' of the match, if it has one), and every match of the visited pattern overlaps a match that is masked that way in the result. Exception (refuted): the masked text itself depends on the visiting order, which Go randomises; a social security number next to an e-mail address is masked in one order and left readable in another, and a second call then finds it.", "quantifier": "every text, every visiting order of the pattern map, both values of the flag", "why_tests_cant": "The number of texts is unbounded and Go's map order is random; a test sees one order per run.", "anchors": ["experimental/kafka-message-pii-filter/pii/pii.go:DetectPII", "experimental/kafka-message-pii-filter/pii/pii.go:detect", "experimental/kafka-message-pii-filter/pii/pii.go:patterns"]}
{"id": "C77", "title": "Envoy statistic names give back their labels", "statement": "ParseEnvoyStatTag of a name that carries any of the thirty key=.=value;.; labels, each at most once and in any order, between a prefix and a metric name without '.' and '=', returns exactly these labels with their values, no others, and the name without them. Conditions: values contain no '=' and no line break and the mark ;.; does not occur before their end, the response code is not empty, and prefix and name together do not end in _rq_Nxx. Exceptions (each refuted by an example): a value can bring its own labels, which win over the real ones; an empty response code swallows the next label; a value with a line break is lost; Envoy's own names lose: a numeric response code at the end is never found, a response code class is cut at its first occurrence instead of the end, and mongo_prefix is set to the keyword instead of the prefix.", "quantifier": "every prefix, name, set and order of labels, and every value within the conditions", "why_tests_cant": "Forty-four expressions are applied one after the other to a changing string; whether one disturbs another must be shown for all values.", "anchors": ["pkg/proxywasm/envoy_tags.go:ParseEnvoyStatTag", "pkg/proxywasm/envoy_tags.go:statTags"]}
{"id": "C78", "title": "The integration handler is set up as configured", "statement": "NewIstioIntegrationHandler returns the handler that leaves everything alone exactly if neither NASP_ENABLED nor the configuration enables the integration; it hands out what it is given. Unset configuration fields (and only these) get their defaults in the caller's configuration, and setting them twice changes nothing. With TLS on, creating an enabled handler fails exactly if the environment or the CA configuration cannot be had, or metrics are pushed without an address or without loadable filters; it then has the CA configuration of the chosen source (Heimdall if HEIMDALL_URL is set, else the mounted token, else the cluster), and transports, dialers, listeners, servers and gRPC options are built around the argument with the default filters (servers: the configured ones, if any). The node properties carry the additional metadata (which win), the standard entries, the monitoring labels (unless metrics are pushed; the path can be read back from its label) and no auto-registration group if Bifrost is used. Job names are valid path segments and differ for node ids without '_', '/', '%'. Calls of GetDiscoveryClient one after the other share a client. Exceptions (refuted): with TLS off everything the handler should hand out panics; configured client filters are ignored; job names of ids with '_' can collide; concurrent first calls of GetDiscoveryClient can get different clients, of which Run connects one; a token file that cannot be examined panics.", "quantifier": "every configuration, environment, source of CA configuration, and every interleaving of GetDiscoveryClient calls", "why_tests_cant": "The number of configurations and interleavings is unbounded; tests pick a few configurations and one schedule.", "anchors": ["pkg/istio/istio.go:NewIstioIntegrationHandler", "pkg/istio/istio.go:SetDefaults", "pkg/istio/istio.go:GetDiscoveryClient", "pkg/istio/istio.go:GetHTTPTransport", "pkg/istio/istio_passthrough_handler.go", "pkg/environment/istio.go:GetNodePropertiesFromEnvironment", "pkg/environment/istio.go:Override"]}
{"id": "C79", "title": "HTTP requests and responses pass the filters in order", "statement": "Inbound: the application's handler is called at most once, and exactly if a stream could be created, no filter failed on the request, its body could be read (or a filter paused before) and no filter answered itself with a positive status. If a filter answered, the client gets the status and body of the last answer and no filter sees it. Otherwise every filter is called once per header block and piece of a body, in the configured order for the request and in the same order for the response. Filters that do nothing are invisible: the handler gets the request (plus a header ':method') with its whole body and the client what the handler wrote; the same for the outbound transport in both directions. Outbound, the request goes out at most once, exactly if no filter failed on it and its body could be read; the caller gets a response exactly if one came, no filter failed on it and its body could be read or a filter replaced it. Exceptions (refuted): a failing filter or stream gives the client 200 with an empty body; a pause hands the request on without the remaining filters and without any filter seeing the body; the last status an application sets wins; the caller's context is not passed on; the declared length stays when a filter changes the body; outbound answers of filters are ignored; a response body is left open when a filter fails on the headers.", "quantifier": "every filter (any function of its state and all it can see, making any host calls), every chain, application, inner transport, middleware, request and response, and every way in which bodies arrive", "why_tests_cant": "Filters and applications are arbitrary programs; tests use one or two WASM modules.", "anchors": ["pkg/proxywasm/http/handler.go:ServeHTTP", "pkg/proxywasm/http/transport.go:RoundTrip", "pkg/proxywasm/stream.go:HandleHTTPRequest", "pkg/proxywasm/stream.go:HandleHTTPResponse", "pkg/proxywasm/host.go"]}
{"id": "C80", "title": "Filters read the attributes of the request, the connection and the response", "statement": "Before the first filter runs on an HTTP request a filter can read, under the names of Envoy's attributes, the request's path, query, host, scheme, method, protocol, time, headers and trailers (as a block and one by one, values joined by commas) and, for an inbound request that came over a tracked connection, whether both sides showed certificates, the subjects and first DNS and URI names of both certificates, the requested server name and negotiated protocol, and address and port of both sides (inbound: source, outbound: upstream). After the response it reads code, headers, sizes and the duration. Numbers are 8 little-endian bytes. The application gets one more element of X-Forwarded-Client-Cert (built from the certificates) and of X-Forwarded-Proto and the request otherwise unchanged; without connection state an inbound request passes unchanged and nothing is set. A property with a one-part name set by a filter reads back and leaves the others alone. Exceptions (refuted): id, user agent and referer are always empty; a valid Content-Length counts as 0; header names are found only in canonical case; the TLS version is empty; the inbound upstream address is the peer's; a client's own X-Forwarded-Client-Cert comes first; response trailers are the headers, counted twice; gRPC status and flags set as text or code are read as 0; a property set under a name of several parts cannot be read; text set over a group name hides the group.", "quantifier": "every request, response, connection state, certificate pair, header map, stream direction, earlier content of the property store and parent store", "why_tests_cant": "Attribute stores are nested maps whose behaviour depends on every name and every earlier write; tests read a few names.", "anchors": ["pkg/proxywasm/middleware/envoy_middleware.go:BeforeRequest", "pkg/proxywasm/middleware/envoy_middleware.go:AfterResponse", "pkg/proxywasm/properties.go:Stringify", "pkg/proxywasm/host.go:GetProperty", "pkg/proxywasm/host.go:SetProperty", "pkg/proxywasm/stream.go:NewStream", "pkg/proxywasm/http/wrappers.go", "pkg/network/cert.go"]}
{"id": "C81", "title": "The bidirectional proxy delivers both streams and half-closes", "statement": "Between two connections that both have CloseWrite, and for every interleaving of arrivals, ends, short reads and failing writes, each peer always gets a prefix of what the other sent, in order, and all of it once that stream ended regularly and no write failed; each connection is closed for writing exactly once, by the direction that writes to it and after its last write; one direction never waits for the other; Start returns after finitely many steps once both peers ended, and not before unless a write failed. Exceptions (refuted): connections with CloseWrite are never closed completely, not even after Start returned; a connection without CloseWrite is closed as a whole when the direction towards it ends, and what its peer sends after that is lost; a peer whose data can no longer be delivered is neither read nor told; a buffer size of 0 crashes.", "quantifier": "all sequences of arrivals, ends, reads and writes of any size, failures and schedules of the two goroutines, with or without CloseWrite on either side", "why_tests_cant": "Interleavings of two goroutines and a network that fails at any byte; tests copy one request and one answer.", "anchors": ["pkg/network/proxy/proxy.go:Start", "pkg/network/proxy/proxy.go:close", "pkg/network/tunnel/server/session.go:248", "components/bifrost/pkg/commands/client.go:234"]}
{"id": "C82", "title": "The TLS state of a connection: found, final, and never read while written", "statement": "ConnectionStateFromNetConn finds the outermost state of a wrapped connection, whatever wraps it, and puts the state of the session into it that the first TLS connection below it (or, if none, the last above it) has; WrapConnection does not wrap a connection that has a state. On a server connection, for every schedule of the handshake, the goroutine that waits for its result, any number of readers of the TLS state and any number of lookups: the TLS state is never read while it is written; a reader gets nothing or the state of the completed session, and always the latter when it asks after the handshake started, unless the state was looked up before the handshake; every run ends, and the only way to get stuck is that a reader asks while the handshake is under way. Exceptions (refuted): such a reader can block the handshake, itself and everybody else for good; a lookup before the handshake can overwrite the final state with the empty one; two threads can write the state at the same time; a TLS connection below the state hides the one above it, so that the state shows the session of the tunnel, not of the peer.", "quantifier": "all chains of wrapped connections; all schedules of the handshake, its goroutine, n readers and m lookups", "why_tests_cant": "Lock orders of four kinds of threads over three locks; a test sees one schedule and passes.", "anchors": ["pkg/network/connection_state_tracker.go:ConnectionStateFromNetConn", "pkg/network/connection_state_tracker.go:getConnectionState", "pkg/network/connection.go:setTLSConnectionState", "pkg/network/connection.go:WrapConnection", "pkg/network/connection_state.go:GetTLSConnectionState", "pkg/network/connection_state.go:SetTLSConnectionStateAsync", "pkg/network/tls.go"]}
{"id": "C83", "title": "gRPC calls through the filters: sent once, counted, closed", "statement": "For every gRPC call of a client, all filters and every answer of the server: the call is made at most once, with the caller's metadata as the filters changed it, in their order (names compared without case), and it is made unless no stream can be had, a filter fails or the target cannot be part of a URL; filters see the request in their order, one that does not continue is the last, and a completed call is shown to every filter once, in order; the caller gets the error of the call as it is, and success exactly when the call succeeded and no filter failed; on every way out, also by a panic, discovery's count of active requests is restored and the stream is closed, so that at any time the count of a target is the number of calls to it under way; Dial takes discovery's address and server name, the caller's if discovery knows nothing. Exceptions (refuted): a filter that denies the call by an answer of its own does not stop it; filters never see a failed call or a status other than 200; whatever is called, they see an empty host, path and scheme, and a target that does not parse panics; the connection state reported is that of the last dial, which can be another peer's.", "quantifier": "all filters, metadata, targets, methods and answers; all interleavings of dials and calls", "why_tests_cant": "Filters are arbitrary code, and the dialer's state is shared by calls and dials in any order; a test runs one filter and one call.", "anchors": ["pkg/proxywasm/grpc/dialer.go:RequestInterceptor", "pkg/proxywasm/grpc/dialer.go:Dial", "pkg/proxywasm/grpc/wrappers.go:WrapGRPCRequest", "pkg/proxywasm/grpc/wrappers.go:grpcHeaderMap", "pkg/proxywasm/stream.go:HandleHTTPRequest", "pkg/proxywasm/stream.go:HandleHTTPResponse"]}
{"id": "C84", "title": "The Java bindings: selector keys, asynchronous reads, writes and accepts", "statement": "A selected key gives back the operation and the id it was made of, and keys of one id combine to the union of their operations. Select answers with one key for every id in its queue, with all the operations queued for that id and no others, and reports every registered reader and writer that is ready while fewer than 64 events wait; a wakeup is reported as no key. What AsyncRead returns is the beginning of what the peer sent, in order, and -1 exactly when the end was seen. What reaches the connection is the beginning of what AsyncWrite accepted, in order, and all of it when the writer is idle, provided that the writer was started once and no write failed after writing something. AsyncWrite does not panic if nothing happens between its check and its send. Every accepted connection is handed over once, in order, and one that waits has an event for it. Not guaranteed (refuted): data that was buffered when the end is seen is lost; with an empty buffer the end is not reported as readable; Close drops accepted data; a write that fails in the middle is begun again, so bytes arrive twice; when the peer is gone the writer may try for ever; AsyncWrite racing with Close panics; with more than 64 ready keys some are not reported; a dialer that is used for two dials mixes their connections.", "quantifier": "all queues, ready sets and key ids; all interleavings of the reading and writing goroutines, the application and the peer, of any length", "why_tests_cant": "reads, writes and selects run in goroutines against a peer that can stop at any byte; a test sees some interleavings", "anchors": ["experimental/java/main.go:Select", "experimental/java/main.go:NewSelectedKey", "experimental/java/main.go:StartAsyncRead", "experimental/java/main.go:AsyncRead", "experimental/java/main.go:StartAsyncWrite", "experimental/java/main.go:AsyncWrite", "experimental/java/main.go:Close", "experimental/java/main.go:StartAsyncAccept", "experimental/java/main.go:AsyncAccept", "experimental/java/main.go:AsyncDial"]}
{"id": "C85", "title": "Tunnel control stream: messages handled once, silent peers closed, living ones kept", "statement": "Messages sent over a tunnel's control stream are handed, as they were sent and each once, to the last handler added for their type, in no particular order; one of an unknown type stops nothing; the end of the stream is no error, and what cannot be decoded is. With a keep-alive timeout T > 0, timers that are late by at most d: an open stream has had a sign of life (its start or a pong) within T + 1s + d, so a silent peer is closed by then; the same bound holds for the keep-alive of a stream that was closed otherwise, so it stops; it closes the stream at most once. A peer that answers each ping within r is never closed by it if T >= 1s + d + r. T = 0 switches it off. Exceptions (refuted): an object without a field gets the field of the message before it; with T + r < 1s every peer is closed at the second check, however fast it answers; T < 0 closes every stream at once.", "quantifier": "all message sequences, handler registries and orders of the goroutines; all timeouts, delays and round trip times; all interleavings of timers, pongs and closing", "why_tests_cant": "Whether a living peer is kept depends on the timing of timers and answers, over an unbounded time; a test runs a few seconds.", "anchors": ["pkg/network/tunnel/common/messagehandler.go:Handle", "pkg/network/tunnel/common/messagehandler_registry.go:HandleMessage", "pkg/network/tunnel/api/message.go:CreateMessage", "pkg/network/tunnel/server/stream.go:keepalive", "pkg/network/tunnel/server/stream.go:pong", "pkg/network/tunnel/server/stream.go:Close"]}
{"id": "C86", "title": "Compressed records read on demand", "statement": "However the gzip decompressor splits its output and tells its end: the bytes that Read and ReadByte of the buffering reader return, put together, are the beginning of the decompressed data, io.EOF comes only when all of it was returned, undamaged data has no other error, and damaged data never ends in io.EOF; a Read for fewer bytes than are buffered plus 16 KiB returns all that it asks for if there is so much. So records whose keys, values and header fields are all smaller than 16 KiB are read from a gzip batch exactly as they were written. Refuted for larger ones: a Read of 16 KiB or more can return fewer bytes without an error, and then the record is read as an empty one, without an error, and what follows from the wrong place. What is written to the snappy writer is encoded as a whole and written once, by Close.", "quantifier": "all data, all splittings of the decompressor's output, all sequences of calls, all lists of records", "why_tests_cant": "What a Read returns depends on the decompressor's windows; tests use small records, which are always complete", "anchors": ["components/kafka-protocol-go/pkg/compression/gzip/gzip.go:Read", "components/kafka-protocol-go/pkg/compression/gzip/gzip.go:ReadByte", "components/kafka-protocol-go/pkg/compression/gzip/gzip.go:fillInternalBuf", "components/kafka-protocol-go/pkg/compression/snappy/snappy.go:Writer", "components/kafka-protocol-go/pkg/serialization/reader.go:Reader", "components/kafka-protocol-go/pkg/protocol/types/fields/batchrecord.go:Read", "components/kafka-protocol-go/pkg/protocol/types/fields/recordheader.go:Read"]}
{"id": "C87", "title": "The Python bindings: handles, answers and memory", "statement": "Calls made one after the other: a transport stays in the pool exactly as long as handles of its id are open and counts them, whatever order they are opened and closed in; another handle of the same id shares it; different ids have different transports; a failed call changes nothing; the last Close removes it, and a Close changes no other id. Every transport handed out runs under a context that is already cancelled, because NewHTTPTransport cancels it when it returns. Refuted: an address and token pair has a transport of its own (pairs with the same concatenation share one, whatever the hash); a handle works until it is closed (two first calls at once, or a call that meets the last Close, leave a handle that is not found). The answer's status is kept; its body is cut at the first zero byte and several values of a header are joined by commas, so it arrives unchanged if no byte is zero and every header has one value. In whatever order answers and errors are given out and freed, nothing is freed twice, and nothing is left when all are freed.", "quantifier": "all sequences of New, Close and Send; schedules of concurrent ones; all answers; all sequences of allocations and frees", "why_tests_cant": "There are no tests of the bindings; the defects need particular addresses, bytes or schedules", "anchors": ["experimental/python/nasp/nasp.go:NewHTTPTransport", "experimental/python/nasp/nasp.go:SendHTTPRequest", "experimental/python/nasp/nasp.go:CloseHTTPTransport", "experimental/python/nasp/nasp.go:GetAndDelete", "experimental/python/nasp/nasp.go:FreeGoHTTPResponse", "experimental/python/nasp/nasp.go:FreeGoError"]}
{"id": "C88", "title": "Finding the CA configuration in a cluster", "statement": "GetIstioCAClientConfig returns a configuration exactly if each of its parts is found, and then: the subject name is that of the first service with the istiod labels of the revision, or, without one, the first with the pilot labels; the endpoint is port 15012 of the first east-west gateway's first address, or of the mesh expansion gateway if there is none or it is empty; the token comes from the first gateway pod or is made for the service account; the root certificate is the entry of the first configuration map of the revision, or, if there is none, the first of any revision, and empty if that has no such entry; mesh ID and trust domain are those of the first map of the revision with a mesh configuration. The addresses of a service follow its annotations, type and ingress; those of a name are the IPv4 ones, whatever order they are resolved in. Refuted: the root certificate is one of the revision; it is found whenever a map of the revision has it; the endpoint can be dialled (IPv6); the call returns (it panics exactly if the first east-west gateway has no address, as a node port or one with only IPv6 addresses).", "quantifier": "all clusters, revisions and failing calls", "why_tests_cant": "Tests would need a cluster; the defects need particular labels, service types or addresses", "anchors": ["pkg/ca/istio/config.go:GetIstioCAClientConfigWithKubeConfig", "pkg/ca/istio/config.go:GetIstiodService", "pkg/ca/istio/config.go:GetEastWestGWAddress", "pkg/ca/istio/config.go:GetIMGWAddress", "pkg/ca/istio/config.go:GetIstioRootCAPEM", "pkg/ca/istio/config.go:GetMeshConfig", "pkg/ca/istio/config.go:GetIstioCAClientConfigFromLocal", "pkg/k8s/service/endpoint.go:GetServiceEndpointIPs"]}
{"id": "C89", "title": "The connection to the certificate service", "statement": "A handshake shows the client certificate exactly if it can be parsed, has not ended and fits its key; without one, or with one that cannot be parsed or has ended, it shows none, so that the token counts; one in its time that does not fit is an error. Mutual TLS counts as used only after such a handshake, and stays so with its connection. A client has at most one connection open; without a certificate directory it never makes another, with a usable certificate every call makes a new one until mutual TLS was used. A chain that is returned is the service's answer and has two certificates at least. GetCertificate answers from the cache while the certificate is in its time, and otherwise exactly if roots, dial, chain and key work. Refuted: a client works again once the service can be reached (after a failed rebuild nothing is ever signed); connections are closed (each request of GetCertificate that reaches the service leaves one open). It panics exactly if a certificate directory is given without TLS.", "quantifier": "all options, certificates, clocks, sequences of handshakes and calls", "why_tests_cant": "Needs histories of failures and handshakes; leaked connections are not seen by tests", "anchors": ["pkg/ca/istio/istio_ca_client.go:CSRSign", "pkg/ca/istio/istio_ca_client.go:reconnectIfNeeded", "pkg/ca/istio/istio_ca_client.go:getTLSDialOption", "pkg/ca/istio/istio_ca_client.go:isCertExpired", "pkg/ca/istio/istio_ca_client.go:buildConnection", "pkg/ca/istio/istio_ca.go:GetCertificate"]}
{"id": "C90", "title": "The service metadata of Istio streams", "statement": "When a response to an outbound request comes from a peer that described itself (the FlatBuffers table in upstream_peer), the stream's properties say the peer's service: its name is the last value of the label service.istio.io/canonical-name, empty if there is none, and its host is that name, a dot, the namespace and .svc.cluster.local; nothing else changes, and nothing at all for other streams. For an inbound request they say the own service, from the label and the namespace of the node; without the label nothing is set, without the namespace only the name. Refuted: any description can be read; one that is shorter than 4 bytes (the empty one too), or that points beyond itself, panics. A peer without the label gets a host that begins with a dot.", "quantifier": "all descriptions of any layout that represent a node, all labels, all properties of a stream; all bytes for the panics", "why_tests_cant": "FlatBuffers can lay a description out in infinitely many ways, and the bytes come from the other side", "anchors": ["pkg/istio/istio_middleware.go:BeforeRequest", "pkg/istio/istio_middleware.go:AfterResponse", "pkg/istio/fb/FlatNode.go:GetRootAsFlatNode", "pkg/istio/fb/FlatNode.go:Namespace", "pkg/istio/fb/FlatNode.go:Labels", "pkg/istio/fb/KeyVal.go:Key"]}
{"id": "C91", "title": "The ticks of WASM filters", "statement": "A tick runs only while its filter's instance is locked for it, and nobody else gets the instance before it ends; a ticker that Done has stopped never ticks again. SetTickPeriodMilliseconds reports success exactly if the instance has its context and plugin. Done returns at once if the stream has no ticker; otherwise it keeps the instance locked until that ticker takes its value, which it can exactly while it waits for its time. Refuted: closing a stream ends (if the ticker has just fired, or Done is called in its own tick, or a filter of the same stream has called Done before, Done never returns and the instance is lost for everybody); after closing a stream its filters do not tick (a period set twice, or a ticker that has not begun when Done is called, ticks for ever); setting a period is safe (one of 0 or less ends the process after the call has reported success).", "quantifier": "all histories of streams, filters, periods, ticks and Done calls on an instance, in every interleaving", "why_tests_cant": "The deadlocks need a tick at the moment of closing, or two filters in a stream; tests would hang or pass by timing", "anchors": ["pkg/proxywasm/host.go:SetTickPeriodMilliseconds", "pkg/proxywasm/host.go:Done", "pkg/proxywasm/common_properties.go:TickerDoneChannelProperty", "pkg/proxywasm/utils.go:StopWasmContext", "pkg/proxywasm/stream.go:Close"]}
{"id": "C92", "title": "What the Bifrost client exposes", "statement": "An argument [port:]host:port of the client is read in exactly one way: a number and a colon at its beginning are the requested port if what follows is host:port, a host is anything without a line break, a port is a number after the last colon. The proxies that are started are those of the arguments that can be read, in their order, with the port given, 0 for none, numbered by place, up to the first argument that cannot be resolved or listened for, at which the command fails. Every connection a proxy accepts is proxied, or closed if its address cannot be dialled; the loop ends exactly when the listener is stopped. Refuted: a host:port is read as meant (an IPv6 address without brackets that begins with a number gives its first group away); a port that is no int is an error (any port is asked for); the command fails if nothing can be exposed (it reports success if no argument can be read).", "quantifier": "all argument lists of any strings, all answers of the resolver, the tunnel, Accept and the dialer", "why_tests_cant": "The expression backtracks over strings of any length", "anchors": ["components/bifrost/pkg/commands/client.go:addrRegex", "components/bifrost/pkg/commands/client.go:runProxies", "components/bifrost/pkg/commands/client.go:proxyclient.Run"]}
{"id": "C93", "title": "What the certifier does to a webhook configuration", "statement": "Heimdall's certifier takes the mutating configuration of its name, or else the validating one, and certifies the name service.namespace.svc of every webhook. It writes the configuration only in a check that renewed the certificate or was triggered, only over one that exists; what it writes is the configuration it loaded at its start, with every webhook failing closed and trusting the CA of that check; a check of this kind whose requests work leaves exactly that trust on the server, and its own updates do not keep it going. A deleted configuration stays deleted. It brings the process down exactly if a check has no certificate at all, or an update event comes after it was stopped. Refuted: a webhook with a URL is left alone (the start panics); a failed update is tried again (no tick does, until the certificate is renewed or the configuration changes); others' changes are kept (they are undone by the copy from the start); a configuration created again gets the CA; stopping is clean.", "quantifier": "all configurations, all answers of the API server and the patch library, all histories of changes by others, checks, events and the stop", "why_tests_cant": "Histories of any length, with other writers in between", "anchors": ["components/heimdall/pkg/cert/webhook_certifier.go", "components/heimdall/pkg/cert/renewer.go:Start", "components/heimdall/pkg/cert/renewer.go:checkCertificate"]}
{"id": "C94", "title": "The contexts of WASM plugins", "statement": "Whoever asks for a context gets the one of that name (a child's name is its parent's, a dot and its own), always the same one unless a new one is forced. The numbers a context gives to its filters and children count up from its own and are pairwise distinct for fewer than 2^32. A property is that of the context itself, or else what its parent sees; setting one is seen by its context and by nobody that is not below it or has a value of its own. A plugin finds its name and configuration in its context whatever plugins are added under other names. Refuted: children of different parents are different (the names run together at dots); numbers never repeat, or differ between plugins; plugins with the same root id have their own configuration (the last one's is given to both); two goroutines get the same context; a context that is found is complete.", "quantifier": "all histories of operations on contexts, all names and keys, all sets of plugins; all steps of two concurrent calls", "why_tests_cant": "Histories of any length over shared global state", "anchors": ["pkg/proxywasm/context.go", "pkg/proxywasm/properties.go:propertyHolderWrapper", "pkg/proxywasm/plugin_manager.go:Add", "pkg/proxywasm/plugin.go:setPluginConfig"]}
{"id": "C95", "title": "What the generator makes of the Kafka message definitions", "statement": "A version text is read as a range exactly if it is \"A-B\", \"A\" or \"A+\" (and, unnoticed, rubbish behind the plus sign). The code generated for all requests, responses and headers is what the generator makes of the definitions in assets/protocol_spec. For every definition that is accepted, every field (at any depth, also in common structs) is generated at its place, and no others; its versions, tag and default are what is written for it; its flexible and nullable versions are what is written for it or for the nearest field around it, else the flexible versions of the message. Refuted: ranges are checked (\"5-2\" is accepted); a field can be null only at its nullable versions: if none are written, for it or around it, it can be null at version 0, and inside a nullable array everything can be null.", "quantifier": "all texts; all message definitions, all paths in them; all 134 definitions of requests and responses, and the two headers", "why_tests_cant": "Generated code is 328 files; that it agrees with the definitions, and what inheritance does at any depth, is for all definitions", "anchors": ["components/kafka-protocol-go/internal/protocol/versions.go:VersionRange", "components/kafka-protocol-go/cmd/gen/context.go:contextFromFieldSpec", "components/kafka-protocol-go/cmd/gen/main.go:generateStructProcessor", "components/kafka-protocol-go/assets/protocol_spec"]}
{"id": "C96", "title": "Weighted clusters get their shares over time", "statement": "A route or TCP proxy with weighted clusters (weights summing to 1..65536), all known and starting from zero counters, gives each of them its share w/W of any number n of requests: at most p more, where p bounds the choices that are made and not yet counted at any moment (1 for requests one after the other), and at most p times the number of the other clusters less; none to a cluster of weight 0. This holds in any history of requests, of other routes, and of route, listener and cluster updates, provided no update names one of the clusters as the only cluster of some route or TCP proxy or removes it, and no other route selects it by weight. Refuted without these conditions: an update that names cluster a alone anywhere (even an unchanged configuration that is sent again) resets its counter only, and then all requests go to a until it has caught up with all that the others ever got; requests of another route that shares a cluster have the same effect; any number of simultaneous requests can go to the same cluster; a single cluster of positive weight that is not known takes all requests, which then fail, but for one per known cluster; of several entries of one name only the last weight counts.", "quantifier": "all weights, map orders, interleavings of choosing and counting, histories of updates and requests of other routes; the refuted claims: all numbers of requests", "why_tests_cant": "Shares are a property of whole histories, map orders are random, and the damage of a reset grows with the length of the history before it", "anchors": ["pkg/ads/internal/cluster/cluster.go:SelectCluster", "pkg/ads/internal/cluster/stats.go", "pkg/ads/route_config.go:onRouteConfigurationsUpdated", "pkg/ads/listener.go:onListenersUpdated", "pkg/ads/cluster.go:onClustersUpdated", "pkg/ads/internal/route/route.go:GetTargetClusterName"]}
{"id": "C97", "title": "A source of plugin code gives what was delivered, once and for all", "statement": "Get of a URL or a named file source never panics and never succeeds without content; in any schedule of concurrent calls, a call that succeeds gives content that the source delivered completely to some call (if nobody writes to a slice that Get gave), hence of an unchanging source always the same. Calls one after the other give an error up to the first complete answer and its content for ever after; the source is opened only up to then, and not by any call that begins when content is stored. Bodies of HTTP responses are closed. Refuted: the status of the response matters (the text of a 404 page becomes the code for ever); files are closed (never); each call gives what it was delivered, and all calls the same (two at once can mix); a caller cannot change what the next one gets; a source of nil bytes gives nothing (it panics); a file source without a name gives an error (it gives nil without one, each time).", "quantifier": "all sequences of answers, all interleavings of the steps of any number of calls, all contents", "why_tests_cant": "Interleavings of calls and histories of failures are unbounded", "anchors": ["pkg/proxywasm/data_store.go:urlDataSource.Get", "pkg/proxywasm/data_store.go:dataSource.Get", "pkg/proxywasm/data_store.go:NewBytesDataSource"]}
{"id": "C98", "title": "A Pushgateway holds the metrics of the instances that run", "statement": "Instances push their metrics to one Pushgateway, each under the key made of its job (its node id, with '.', '/' and '%' replaced) and, if configured, a unique label value. The group of an instance whose key no other has holds nothing but metrics that it pushed itself, and no event of another instance changes it; a push that arrives replaces it. After its context is done an instance begins no push; if its deletion then succeeds with none of its requests on the way, the group is gone for ever. Keys differ if unique labels are used and differ; without them they are equal exactly for equal job names. A negative interval panics, 0 is 5 seconds. Refuted: metrics of an instance that is gone are gone: a push that is on the way when the context is done can arrive after the deletion; a deletion that fails is not tried again, and nothing waits for it before the process ends; then the metrics stay for ever. Refuted: metrics of a running instance stay: two instances on one node id without unique labels (or with colliding job names) replace each other's, and the first to stop deletes the other's.", "quantifier": "all numbers of instances, keys, histories of ticks, arrivals, losses, cancellations, deletions and exits", "why_tests_cant": "The order in which requests arrive and processes end is not under a test's control, and what is left behind shows only later", "anchors": ["pkg/istio/istio.go:RunMetricsPusher", "pkg/istio/istio.go:createMetricsPusher", "pkg/istio/istio.go:Run", "pkg/istio/istio.go:PushgatewayConfig.SetDefaults"]}
{"id": "C99", "title": "The discovery connection is made again", "statement": "The loop that connects to the management server ends only after the user's context is done or a stream ended with status Canceled; nothing follows its end, and no connection is made after the context is done. When a connection has ended otherwise, the next attempt starts with a fresh one. Whenever the stream has ended, or the context is done, the connection can be given up by the steps of its goroutines, unless the receiver waits for a refresher that has returned, an unsupported response was received, or over 100 requests are queued (never more than 100 are in the queue). While nothing fails, a connection stays as it is made, and can always get to where all its requests are sent, the API results are refreshed and the receiver waits. Each response of a known type leads to its answer, the requests that follow from it, and one refresh. Refuted: a lost connection is made again: if sending fails, or the context ends, while a response is handled, the refresher may return first; then the receiver waits for it for ever, in every continuation, and the connection is neither closed nor made again. Refuted: a response of an unsupported type is ignored: after it nothing is received on that connection, which stays until the context is done. Refuted: only the user ends discovery: a stream that ends with status Canceled is not made again.", "quantifier": "all histories of responses, breaks, failing sends, cancellations and schedules of the three goroutines", "why_tests_cant": "The hang needs one of several goroutines to return in a window of another; a test neither controls this nor sees that nothing will ever happen again", "anchors": ["pkg/ads/api.go:Connect", "pkg/ads/client.go:connectToStream,handleStream,handleStreamReceive,handleStreamSend,apiResultsRefresher"]}
{"id": "C100", "title": "Running an Istio handler", "statement": "Run fails exactly if discovery cannot be connected or, with Bifrost configured, no dialer can be made; then no tunnel client and no metrics begin. Each successful Run begins one metrics pusher, or one metrics server if none is configured, and with Bifrost one tunnel client, which is given the labels of the environment with the canonical service name; virtual listeners can be made exactly after such a Run. A free metrics port gives the metrics of the handler after Run; a port belongs to at most one server, and an answer on it comes from a handler configured for it. Refuted: the metrics server stops with its context: the port is never given back and the metrics of the stopped handler are answered for ever; a handler run later on this port is never measured over TCP; a server whose context is done already still takes its port; one that cannot make a stream handler holds its port without an answer. Refuted: a Run that failed leaves nothing running: discovery stays connected if the dialer fails. Refuted: Run does not change the environment: with Bifrost it writes the service name into its labels, and changes no other.", "quantifier": "all handlers, configurations, label maps, histories of runs, cancellations and metrics goroutines", "why_tests_cant": "What stays after a stop shows only in what later histories can do", "anchors": ["pkg/istio/istio.go:Run", "pkg/istio/istio.go:RunMetricsServer", "pkg/istio/istio.go:GetVirtualTCPListener"]}
{"id": "C101", "title": "Exposed ports in the config map", "statement": "Every entry of the ports map and of the config map is that of a client which exposed the port: its name, address, ports and session, the service from its metadata and the namespace of its user. When no reconciliation is due the config map shows the ports map. If each change of a port is handled before the next of the same port is published, and its listener does not break, then, once all is handled, the config map shows the port exactly while a client exposes it. Refuted without this condition: openings and releases are handled in independent order, so that a port released before its opening was handled stays in the config map until it is exposed again, and a port that changes hands can be missing while its new owner listens, as the release does not look at the session. Refuted: a listener that breaks takes its port out of the map.", "quantifier": "all histories of openings, closings, broken listeners, handled events and reconciliations that succeed or fail, over all ports and clients", "why_tests_cant": "The order in which the two topics are handled is up to the scheduler", "anchors": ["components/bifrost/pkg/commands/server.go", "components/bifrost/pkg/controllers/configmap.go:Reconcile,TriggerReconcile", "pkg/network/tunnel/server/port.go:Listen"]}
{"id": "C102", "title": "Attribute store with a lock", "statement": "When no call panics, reads, writes and resets by any number of goroutines get the answers, and leave the data, of the store without a lock used in the order in which the lock is taken, and no call blocks. A call blocks only after an earlier one panicked. Refuted: a read that panics (a negative index into a list) keeps its read lock, after which no write takes effect, the first write blocks for ever and every later call with it; a write to a nil map panics with the write lock held, and every later call blocks.", "quantifier": "all histories of reads, writes and resets, in the order in which the lock is asked for, from every map or the nil map", "why_tests_cant": "The schedule of the goroutines and the point at which a call panics are not fixed by a test", "anchors": ["pkg/dotn/dotn_concurrent.go:Get,Set,Reset"]}
