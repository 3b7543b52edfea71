# Formal model of cisco-open/libnasp in Rocq (Coq 8.16.1)

The code is read as text only (no build, no run).  The model is a set of total Gallina
functions and small transition systems in `rocq/theories/`; each definition cites the file and
lines of `/repo` it models and says where it simplifies.

## Layout and conventions

* `M_*.v`  : model files (definitions only, executable, no proofs).
* `S_*.v`  : specification files where a property needs vocabulary of its own (small, separate,
  no dependency on model helpers except the types of the API).
* `L_*.v`  : lemmas and proofs.
* `P_*.v`  : property theorems only; each is `exact <lemma>` followed by `Print Assumptions`, with
  `Example`s next to them that show the hypotheses are met by a concrete non-trivial case.
* Where the code falls short of what a user would expect, the property's statement in
  `properties.jsonl` says exactly what holds and names the exceptions; each exception is a defect
  proved to occur by a theorem `…_refuted` (the expected claim is false, shown by a concrete witness
  or for all states), and the guarantee outside the exceptions is proved.  `MANIFEST.json` then says
  "proved" and lists the defects in its note.  "partial" is kept for properties whose claim is not
  covered completely; a theorem that covers only a part of its property is named `…_partial`.
* Bytes are `Z` (or `N`) in `0..255` resp. `list` of them; Go integers are `Z` with explicit
  wrap-around where a property depends on it; errors are values (`option`/`result`);
  a panic is an explicit outcome, never a default value.
* Concurrency: goroutines are explicit program counters in a transition system, each atomic step is
  a mutex-protected region or one channel operation; theorems quantify over all schedules.

## Planned treatment of each property

| id | model | proof |
|----|-------|-------|
| C01-C03 | varint.go + encoding/binary's Put/ReadUvarint as byte-list functions | induction on the number of 7-bit groups |
| C04 | int.go, bool.go, float.go (bit patterns), uuid.go | big-endian digit lemmas |
| C05 | SliceWriter as (capacity, list) with an operation type | invariant over all op lists |
| C06 | ChunkReader as a chain of (base,size) windows on a (data,pos) reader; with runes: also Go's prevRune (M_KRune) | refinement to "firstn n of the suffix"; for runes to a reader that knows the bytes behind the window; UTF-8 decoding inverts encoding |
| C07-C10 | string.go, bytes.go, array.go, arrayofstruct.go, taggedfields.go | reader/writer inversion lemmas |
| C11-C13 | the generator template as a schema interpreter (schema, versions, nested structs, arrays, tagged) | induction over schemas |
| C14 | header tables | finite sweep by `vm_compute` lifted to all keys/versions |
| C15-C18 | batchrecord.go, recordheader.go, recordbatch.go, recordbatches.go; CRC-32C executable | inversion lemmas, refutations |
| C58-C60 | same reader models, panics as outcomes | nopanic lemmas, refutations |
| C19 | pools.go bucket selection | invariant over all histories |
| C20-C24 | resourceCache, ADS client ack/nack and update handling as a state machine | invariants over histories, refutations |
| C25-C26 | ResolveHost, virtual host search | decision lemmas |
| C27 | apiResultObservable transition system | reachability of the stuck states (refuted), an iff for when the refresher is blocked for good, invariants for the delivered value |
| C28-C29 | load balancers with an oracle for random draws, counters modulo 2^32; floating point as a parameter, instances IEEE binary64 (Flocq) and rationals | case analysis, induction; for binary64 a bridge to real numbers (`L_Float*.v`): rounding is monotone and exact on small quotients, so comparisons of shares decide as in exact arithmetic |
| C30-C31 | pool as transition system over raw connection ids | invariant over all schedules, stuck-state witness |
| C32 | registry as map + counter | invariant |
| C33-C36 | port provider, tunnel session state machine | invariants, refutations |
| C37 | tunnel client OpenTCPStream | decision lemma, refuted |
| C38 | unified listener peek logic | stream lemma |
| C39 | multi listener transition system | invariant, panic witness |
| C40 | connection wrapper state | invariant over histories |
| C41 | string_matcher.go without regex (regex engine not modelled) | decision lemmas |
| C42 | verify.go as boolean structure over oracles for x509 and hashes | decision lemma, refutation |
| C43 | dotn.go on nested maps | structural induction, refutations |
| C44 | tcp/conn.go | stream invariant over schedules, refutation |
| C45 | serializeMapToPairs and an ABI decoder | inversion |
| C46-C50 | plugin/metrics/vm/filter chain state machines | invariants, refutations |
| C51-C56 | pure decision logic on strings | case analysis, string lemmas |
| C57 | getNextSerial as two-step threads | witness interleaving |
| C61 | tunnel client port Close/requests as outcomes with panics | case analysis, panic witness |
| C62 | SPIFFE id and cluster name construction | string injectivity, refutation |
| C63 | selfsigned certificate template from the request options | decision lemmas, refutation |
| C64 | listener choice and the loops over chains and filters as functions of listed resources | selection iff, soundness, permutation invariance, refutation of first chain and statistics |
| C65 | chain search, range matching on numeric addresses, fold over the chains | selection iff, STRICT recognised, permutation invariance, refutations against Envoy's rules |
| C66 | socket matching over metadata maps with crash as a result | soundness, exactness on comparable criteria, refutations |
| C67 | small-step relation over calls, pools, registry and contexts; pool internals as C30/C31 | inductive invariant over all histories for endpoint and origin of the settings; settings under the condition that discovery does not change; constructed histories for the defects |
| C68 | small-step relation: assignment of server name, verifier, dialer, and sending are separate steps; connections kept by scheme and host | invariants over all histories; serial executions; constructed interleavings for the defects |
| C69 | small-step relation over servers, the map of watches and contexts; the xDS client is the environment | inductive invariant over all histories; permanence of the failures proved for all continuations |
| C71 | collect, getSubset and Reconcile as functions over listed objects, with an oracle for API failures | exact characterisation of collected ports, of subsets and of the objects afterwards for every failure pattern; refutations |
| C70 | callbacks, both buffers, cached sizes and the in-flight slice with its capacity; host as buffer per side; parse/redact as function argument | invariant over all event lists; queue refinement; refutations |
| C72 | Reconcile/createToken/deleteToken as a function of the stored secrets and an oracle for every API call; event filter; histories as lists of rounds | case analysis, induction over histories; refutations |
| C73 | handler, start-up, registry lookup, CA config for a service account, client header and result; authenticate of C52 | equivalence for 200, consequences, composition with the client; refutations |
| C74 | pods with labels, owners, containers; owner heuristics; five mutation steps; environment parsing; Override | structural equalities, split/join round trips, permutation argument for map order; refutations |
| C75 | wrapped callbacks, name and support lookup, recording with panic outcome; crypto/tls selection (Go 1.19) as the reference | case analysis on the configuration, equivalences for equality and for panics; refutations by witness |
| C76 | M_Pii.v with the twenty patterns over M_Regex.v, a leftmost-first backtracking engine | engine sound and complete for an inductive match relation (S_Regex.v); each expression equivalent to a declarative description of its kind (S_PiiKinds.v, through the language of an expression, L_Lang.v); induction over the visiting order |
| C77 | M_StatTags.v: all 44 expressions over the engine of M_Regex.v, strings.Replace | no key is a suffix of another, so the text key=.= occurs only at its label; induction over the table; P_StatTags2.v: when each of the 44 expressions applies, cluster names |
| C78 | M_Integration.v: construction, defaults, getters, node metadata, products as data, base64, job name over M_Regex.v; GetDiscoveryClient as a step relation | case analysis over the outcomes; map lookups; invariant over interleavings |
| C79 | M_WasmHttp.v: handler, transport, stream loops over header and body callbacks, host calls, guests as functions of the visible world | induction over the filter chain and the pieces of a body, with an invariant on the log of callbacks |
| C80 | M_EnvoyProps.v: middleware writes into the dotted store of M_Dotn.v, property lookup and rendering, header maps, SplitHostPort, Atoi | a view of two-level keys preserved by each write, then a fold over the list of writes |
| C81 | M_Proxy.v: transition system of two copying goroutines and two connections | invariant per direction over all runs, a decreasing measure for termination |
| C82 | M_ConnState.v: the search through the layers; a transition system of handshake, waiter, readers and lookups with their three locks | induction over the chain; an inductive invariant over all runs, a decreasing measure, case analysis of stuck states |
| C83 | M_GrpcCall.v: the interceptor as a function to an outcome and a log, with filters as arbitrary functions; a transition system of calls and dials | induction over the filters; an invariant over all runs |
| C84 | M_JavaNio: keys as 64-bit words, the selector as a function of queue and checks, a connection and a listener as transition systems | bit-level lemmas for keys; induction over the queue; invariants over runs; concrete runs for what is refuted |
| C85 | M_TunnelCtl: the decode loop as a function; the keep-alive as a timed transition system with bounded delays | induction over the messages; invariants over all timed runs |
| C86 | M_KGzip: the buffering reader over an arbitrary source, and the record readers on it | the bytes returned plus what is left is invariant; fill computes a prefix; agreement with the readers of lists, by structure of the record; a computed run for a value of 40000 bytes |
| C87 | M_PyBind: the pool and its counters, sequential and as a transition system; C strings; the heap as a list of blocks | invariant over histories of handles; concrete schedules for the refuted claims; permutation invariant of live blocks |
| C88 | M_IstioCfg: the lookups over arbitrary objects and failures | each lookup equals a declarative specification (first of a list with labels); sorting of addresses is invariant under permutation; concrete clusters for the refuted claims |
| C89 | M_CaClient: a client as its connection, the open connections and usingMtls, driven by handshakes and calls | invariant over all histories; case analysis; histories of any length for the leak |
| C90 | M_PeerNode: the accessors on bytes with wrapping offsets and panics | a relational specification of a buffer (what is at which position); reading equals it, by induction on the labels; a concrete description |
| C91 | M_Ticker: a transition system of the tickers, the lock, the properties and the sends | invariant over all executions; stuck and orphan states are closed under all steps; concrete runs for the refuted claims |
| C92 | M_BifrostClient: the expression in the engine of M_Regex, with its captures; the loop over the arguments | the captures are computed symbolically for all strings and equal a relational specification; the run equals an inductive specification |
| C93 | M_Certifier: the certifier, the server and the informer as one state machine; the patch library is a parameter | invariant that the memory is the loaded configuration up to trust, for every history; case analysis of a step for writes and crashes |
| C94 | M_Context: a heap of contexts and the global registry; calls as whole steps, and GetOrCreateContext also step by step for two goroutines | invariant on names and parents for every history; counting of numbers modulo 2^32; a relational specification of lookup |
| C95 | M_KGen: the generator as a function from definitions to the schemas of M_KSchema; M_KSpecs: the definitions, extracted from the JSON files | exact characterisation of the number and range syntax; computation for the equality of generated and extracted schemas; induction on paths, with an invariant for common structs, for inheritance |
| C96 | M_AdsShares: the selection of M_AdsLb split in choosing and counting, with the updates that touch the counters | invariant over histories (counted + pending = chosen; W*chosen <= w*n + W*p) from C28_cluster_selected (IEEE-754), summation for the lower bound; induction on the number of requests for the refuted claims |
| C97 | M_DataSource: small-step model of concurrent Gets with a heap of slices | invariant over events; induction on the answers for the sequential characterisation |
| C98 | M_Pusher: goroutines of any number of instances, requests on the way and the groups of the gateway | invariant over histories for ownership; induction on the rest of the history for what is left behind |
| C99 | M_AdsConn: receiver, sender and refresher of a connection, the errgroup, the bounded queue and the retry loop | an invariant over all histories for the reasons to stop; closure under every step for the hangs; an explicit schedule from every other state for the end of a connection |
| C100 | M_Run: handlers, their goroutines and the ports of a process | counting of runs along histories; an invariant that relates ports and servers; monotonicity of what holds a port |
| C101 | M_PortMap: listening ports, the queues of the two topics, ports map, config map | invariants over histories; a three-case invariant for a port with at most one unhandled event |
| C102 | M_DotnConc: the store of M_Dotn and the locks never released | refinement to the plain store by induction over histories |

## Model files, what they cover and what they leave out

Every definition carries its own citation; this table says where the border of each file lies.

| file | code (under /repo) | left out or abstracted |
|------|--------------------|------------------------|
| M_KBase | kafka `types/int.go`, `varint.go`, `bool.go`, `float.go`, `uuid.go`, `serialization` | floats are bit patterns; a reader is the list of unread bytes |
| M_KIo | `bytes/slicewriter.go`, `bytes/chunkreader.go`, `pools/pool.go` | `sync.Pool` may drop or keep any element (nondeterminism); readers with short reads are not modelled |
| M_KRune | `bytes/chunkreader.go` ReadRune, UnreadRune, WriteTo; `bytes.Reader` with `prevRune`; `utf8.DecodeRune` | as M_KIo; a writer is the number of bytes it takes and whether it fails |
| M_KFields | `fields/string.go`, `bytes.go`, `array.go`, `taggedfields.go` | object pools (`Release`) |
| M_KRecords | `fields/recordheader.go`, `batchrecord.go`, `recordbatch.go`, `recordbatches.go`, `crc32c.go` | compression libraries are an argument `codec`; chunk readers are windows (justified by C06) |
| M_KSchema, M_KSchemas | `assets/templates/struct_processor.tmpl` and its 328 instances, read by `tools/extract_schemas.py` | getters, setters, defaults that are not written, `String`, `Equal`, `Release` |
| M_KMsg | `request/*.go`, `response/*.go` | pools |
| M_Ads | `pkg/ads/common.go`, `client.go`, `cluster.go`, `listener.go`, `internal/util` | protobuf decoding (an Any decodes or not), gRPC transport, request queue bound |
| M_AdsRoute | `nametable.go`, `api_http_client.go`, `internal/{listener,route,virtualhost}` | `netlib`: net.ParseIP, regexp, ToLower are parameters |
| M_AdsLb | `internal/{endpoint,cluster,loadbalancer}`, `api_tcp_client.go:335-393`, `istio/discovery/connection_wrappers.go` | floating point is a parameter `arith`, with IEEE binary64 and exact rationals as instances; random numbers are arguments |
| M_AdsWatch | `api_result.go` and the watch goroutines | one observable; a response is a number and an error flag |
| M_Pool, M_Registry | `pkg/network/pool` | deadlines, factory errors; the idle timer may fire at any time |
| M_Tunnel | `pkg/network/tunnel/{server,client,api,auth}` | muxado, sockets, event bus, JSON syntax |
| M_Net | `unified_tls_listener.go`, `multi_listener.go`, `connection.go`, `connection_state.go` | TLS itself; the network is a list of chunks |
| M_GoMap, M_GoStr | Go maps, `sort.Strings`, package `strings` | maps are association lists; all orders are quantified over |
| M_Matcher | `pkg/util/string_matcher.go` | `mlib`: the regexp engine is a parameter |
| M_Verify | `pkg/tls/verify/*.go`, `pkg/ads/cert_validation.go` | `xlib`: x509 chain building, hashes and encodings are parameters |
| M_Dotn | `pkg/dotn/dotn.go` | aliasing of one map in two places |
| M_WasmTcp, M_WasmMap, M_WasmPlugin, M_WasmMetrics | `pkg/proxywasm/{tcp/conn,utils,plugin,plugin_manager,vm,vm_store,stream,filter,metrics,host}.go` | the WASM runtime and guest code: their answers are arguments |
| M_Identity | labels, Heimdall JWT audience, Bifrost port ids, node identity | Kubernetes API answers are arguments |
| M_Ca | `heimdall/pkg/cert`, `pkg/ca/istio/istio_ca.go`, `pkg/ca/selfsigned` | `clib`: key generation, signing and parsing are parameters with a stated contract |
| M_AdsProps | `pkg/ads/api_tcp_client.go:216-318,396-425`, `api_listener_properties.go:178-337`, `internal/cluster/cluster.go:133-216`, `pkg/tls/verify/util.go:93-104` | address parsing is a parameter, addresses are numbers; IPv4-mapped prefixes and metadata JSON left out; resources are given as lists in any order |
| M_Dial | TCP dialer DialContext, HTTP transport RoundTrip | pools' Get/Put atomic (see M_Pool); stream handlers, dial wrappers and logging left out; contexts are numbers, verification data a number |
| M_Serve | xDS discovery client's listener property watch, updateUnifiedListener, initial listener settings | the xDS client is the environment; the three assignments of one callback are one step; retry timing left out |
| M_Endpoints | Bifrost EndpointsReconciler: collectPortsBySessionAndService, getSubset, Reconcile | service keys as pairs; address resolution gives an IP text or fails; ranges over maps are lists in iteration order; owner references left out |
| M_PiiFilter | Kafka PII wasm filter: OnDownstreamData/OnUpstreamData, message availability, handlers, in-flight queue with slice capacity, resets and failures; host buffer semantics | request/response parsing and PII detection are a function argument; host calls do not fail; logging not modelled |
| M_WgToken | Heimdall WorkloadGroup controller: token secret create/renew/delete, event filter, histories | JWT parsing, duration parsing and TokenRequest are function arguments; ReconcileResource is one write; owner reference setting does not fail |
| M_HeimdallSrv | Heimdall /config handler, Run start-up, registry lookup, CA client configuration for a service account, client header and result | control plane discovery is one result; JSON and HTTP transport not modelled; logging not modelled |
| M_PodMutator | Heimdall pod mutator (labels, annotations, environment, volumes, mounts), owner heuristics, environment parsing and Override | JSON patch, decoding and the config map lookup are outside; go-envconfig's splitting is modelled from its documented behaviour; the cron job regexp is written out as a function; kinds are ASCII |
| M_TlsWrap | WrapTLSConfig, SetLocalCertificate and the certificate choice of crypto/tls as reference | a certificate is its chain of blocks; SupportsCertificate is an arbitrary predicate of the hello; names are ASCII; session tickets and the handshake itself are outside |
| M_Regex | Go's regexp (leftmost-first), for the constructs used in envoy_tags.go and pii.go | bytes instead of runes; repetition of single classes only, counted groups written out; the engine is checked against an inductive match relation |
| M_Pii | experimental/kafka-message-pii-filter/pii/pii.go, all functions and patterns | capture groups left out |
| M_StatTags | pkg/proxywasm/envoy_tags.go, all | - |
| M_Integration | pkg/istio/istio.go: configuration, getters, New, GetDiscoveryClient, GetHTTPTransport, GetGRPCDialOptions, ServeHTTP, GetTCPListener, GetTCPDialer, default filters; istio_passthrough_handler.go; environment/istio.go: Override, GetSecretTTL, node properties | handed-out objects are recorded as data; the environment parser, WASM and prometheus libraries are arguments or left out; Run and the metrics server are not modelled |
| M_WasmHttp | pkg/proxywasm/http/handler.go, http/transport.go, http/middleware.go, stream.go:126-233, host.go:104-197 | guests are functions of what they can see; header keys are canonical; URL, protocol, trailers are left out; a middleware is a function on the world |
| M_EnvoyProps | pkg/proxywasm/middleware/envoy_middleware.go, properties.go:Stringify, host.go:41-103, stream.go:NewStream, http/wrappers.go, network/cert.go | times and certificates are data, the renderer of an XFCC element is a parameter, the order of map iteration in a serialised header block is that of the list |
| M_Proxy | pkg/network/proxy/proxy.go, io.CopyBuffer | a Read returns at least a byte or an end; io.CopyBuffer's fast paths behave as its loop; the peer and the network are arbitrary events |
| M_ConnState | pkg/network/connection_state_tracker.go, connection.go:75-190, connection_state.go:190-260, tls.go:85-110 | a TLS state is a number; the client side is left out; releases of locks are single steps |
| M_GrpcCall | pkg/proxywasm/grpc/dialer.go, grpc/wrappers.go, stream.go:126-205, envoy_middleware.go (what an outbound gRPC call shows) | response metadata is not nil; messages are not modelled; url.Parse and strings.ToLower are arbitrary functions |
| M_JavaNio | experimental/java/main.go: Selector, SelectedKey, Connection (async read/write/close), listener and dialer | one caller of Select; sync.Map order arbitrary; Read returns data or an error |
| M_TunnelCtl | pkg/network/tunnel/common/messagehandler*.go, api/message.go, server/stream.go (keep-alive) | JSON null not modelled; accesses to lastPong and keepaliveTimer are atomic; sending a ping does not fail |
| M_KGzip | pkg/compression/gzip/gzip.go, snappy/snappy.go, serialization/reader.go (gzip); batchrecord.go, recordheader.go Read over it | compress/gzip is an arbitrary source that returns at least one byte or its end |
| M_PyBind | experimental/python/nasp/nasp.go | the hash and the transport's answers are arbitrary; refCount does not wrap |
| M_IstioCfg | pkg/ca/istio/config.go, pkg/k8s/service/endpoint.go | API answers, token commands, name resolution and YAML parsing are arbitrary |
| M_CaClient | pkg/ca/istio/istio_ca_client.go, the connections of istio_ca.go | crypto is arbitrary; grpc as open and closed connections |
| M_PeerNode | pkg/istio/istio_middleware.go, pkg/istio/fb | the FlatBuffers library's accessors are written out from its documented format; %s of a value that is no string is its given text |
| M_Ticker | pkg/proxywasm/host.go 240-301, common_properties.go 18-44 | no time: a ticker may fire whenever it waits; the lock of an instance is a mutex |
| M_BifrostClient | components/bifrost/pkg/commands/client.go 41, 142-236 | resolver and tunnel answer arbitrarily; the proxies that run are a list |
| M_Certifier | components/heimdall/pkg/cert/webhook_certifier.go, renewer.go 72-137 | the API server answers arbitrarily; the patch library is a test with two assumptions, met by a concrete one; the client's cache is up to date |
| M_Context | pkg/proxywasm/context.go, properties.go 33-58, plugin_manager.go 140-150, plugin.go 208-245 | property stores are maps (paths: M_Dotn); calls are atomic except in the two-goroutine model |
| M_KGen | components/kafka-protocol-go/internal/protocol/versions.go, messagespec.go, cmd/gen/context.go, cmd/gen/main.go 190-345, 477-567 | names and comments are not modelled; types without spaces; no defaults of floats; common structs are defined before they are used |
| M_KSpecs | components/kafka-protocol-go/assets/protocol_spec/*.json | generated by tools/extract_specs.py (trusted) |
| M_AdsShares | pkg/ads/internal/cluster/stats.go, route_config.go 59-93, listener.go 81-104, cluster.go 80-120 (counters), internal/route/route.go 111-129 | a choice reads the counters as one snapshot; counting is a separate step; log lines left out |
| M_DataSource | pkg/proxywasm/data_store.go | looking at the cache and returning it is one step; errors are not wrapped; the HTTP client and the file system are inputs |
| M_Pusher | pkg/istio/istio.go 141-160, 286-310, 552-560, 673-711 | metrics are a number; the gateway's PUT and DELETE semantics and PushContext's are those of the library, which is not in /repo |
| M_AdsConn | pkg/ads/api.go 173-198, pkg/ads/client.go 125-226, 280-296, 313-406, 489-506 | responses are the number of requests they lead to; time is left out; gRPC streams, errgroup and backoff.Retry as documented, their code is not in /repo |
| M_Run | pkg/istio/istio.go 517-613 | net.Listen fails exactly on held ports; outcomes of discovery, dialer, tunnel and stream handler are arguments; the TLS side of the metrics server is M_Serve |
| M_PortMap | pkg/network/tunnel/server/port.go 70-145, components/bifrost/pkg/commands/server.go 106-131, components/bifrost/pkg/controllers/configmap.go 59-77, 92-168 | the event bus (one queue per topic) and controller-runtime are not in /repo; the YAML and its grouping by session are left out |
| M_DotnConc | pkg/dotn/dotn_concurrent.go 23-59 | a critical section that ends is one step; Clone is left out |

Parameters that appear as records (`netlib`, `mlib`, `xlib`, `clib`, `codec`, `arith`) are ordinary arguments of the
model and universally quantified in the theorems.  A theorem that needs a contract of such a library states it as a
hypothesis, and an example next to it gives an instance that meets the contract.

Not modelled at all: command line programs (`cmd`, `components/*/cmd`, `examples`, `experimental`), Helm charts, the
code generator `cmd/gen`, generated flatbuffer and protobuf code, logging, OpenTelemetry, the TLS and HTTP stacks.

## Trusted base

* Coq's kernel (8.16.1) and the standard library.  Each property theorem is followed by `Print Assumptions`.  All of them
  answer *Closed under the global context* except the following, which reason about IEEE binary64 through Flocq's real
  numbers: `C28_round_robin_least`, `C28_round_robin_total`, `C28_round_robin_dries_up_refuted`, `C28_round_robin_each_once`,
  `C28_round_robin_cycles`, `C28_equal_loads`, `C28_equal_endpoints_cycle`, `C28_equal_endpoints_fail_refuted`,
  `C28_cluster_selected` and `C64_weighted`.  For these, `Print Assumptions` lists four axioms, all of the standard library
  (Flocq declares none): `ClassicalDedekindReals.sig_not_dec`, `ClassicalDedekindReals.sig_forall_dec`,
  `FunctionalExtensionality.functional_extensionality_dep` and `Classical_Prop.classic`.
  (Other files load standard-library modules that declare axioms, e.g. ssreflect's `Under_rel` interface; no theorem depends on them.)
* `vm_compute`/`native` conversion: `vm_compute` is used in some examples and finite sweeps, so the kernel's bytecode
  conversion is trusted there; `native_compute` is not used.
* The reading of the Go source by the author.  Nothing connects the model to the code mechanically.
* `tools/extract_schemas.py`, which turned the 328 generated Go structs, the api-key switches and the header
  tables into `M_KSchemas.v` (it asserts that Read, Write and SizeInBytes agree on the field order).
* Modelled behaviour of Go's runtime and libraries (memory model, channels, `sync.Map`, `sync.Once`, mutexes, map iteration
  in any order, integer wrap-around): stated in the comments of the model files.  Data races are not given a semantics
  beyond the interleaving of the steps listed in the models.

## Testing the theorems

`tools/mutate.py` applies an edit to a model file in a scratch copy, rebuilds the files that depend on it and lists the
theorems of the `P_*.v` files that no longer compile.  The results are in `seeded/LOG.jsonl`, one line per edit; where a
wrong program had slipped through, the theorem that was added or tightened is named there.  Edits that would *repair* a
defect the model exhibits are also tried: then the `_refuted` theorem has to fail.
