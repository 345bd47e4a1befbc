# Design: a Rocq model of mc-coap

Everything lives in `rocq/theories` (logical prefix `Verif`).  The code in /repo
was read as text; it is not built or run.  Files come in four kinds:

* `*Model.v`  executable Gallina functions, one per C++ function, each with a
  comment citing file and lines.  No proofs.
* `*Spec.v`   small independent specifications (RFC grammars, big-endian value,
  abstract histories).  They do not use the model's helpers.
* `*Proofs.v` lemmas.
* `*Props.v`  the property theorems (with the last steps of their proofs),
  `Print Assumptions`, and an `Example Cnn_case...` that meets the theorems'
  hypotheses with a non-trivial case.
* `Tests*.v`  the expectations of the repository's unit tests, computed with the
  model (see "Comparing the model with the unit tests").

A theorem named `..._refuted` shows that a full claim one would expect (from the
RFC, or from the comments in the code) is false of the code as modelled; these are
the findings, collected at the end.

## Modelling conventions

* Bytes and machine integers are `N` (or `Z` when signed); wrap-around is written
  out (`mod 2^8`, `mod 2^16`, `mod 2^32`).
* A failed `ASSERT_ERROR/ASSERT_ABORT` and undefined behaviour (out-of-bounds
  read/write, signed overflow) are the distinct outcome `Fault`; a loop that does
  not end is the distinct outcome `NoFuel` of a fuelled function, and theorems
  state that it does not occur (or, for the non-termination findings, that it
  occurs for every fuel).  `ASSERT_ERROR(false,false,..)` compares equal values,
  hence never fires: the model falls through to the `return` that follows, as the
  code does.  `ASSERT_WARN` only prints and is not modelled.
* Memory that the C++ leaves uninitialised (token/option decoder union, header
  bytes, members no constructor sets) is an arbitrary value the theorems quantify
  over.
* Loops become structural recursion or fuelled recursion.
* Virtual calls to user code (handlers, `emit` callbacks of notifications,
  addresses and their comparison) are arbitrary functions the theorems quantify
  over, as arguments (no `Section`, `Variable` or `Hypothesis` is used).

## Trusted base

* The Coq 8.16.1 kernel (`vm_compute` included).
* `Print Assumptions` under every property theorem prints `Closed under the global
  context`: no axiom at all, not even a standard-library one.  Only the standard
  library is imported (`List`, `NArith`, `ZArith`, `Arith`, `Lia`, `Bool`,
  `Permutation`, `ZifyBool`, `ZifyNat`, `ZifyN`).  `coqchk -o` also lists
  the opaque module interface of `Coq.ssr.ssrunder.Under_rel` (7 constants), which
  comes with the standard library files `Lia` loads; no theorem depends on them.
* The faithfulness of the model, i.e. our reading of /repo.
* External libraries whose sources are absent from /repo (`ext/` is empty):
  `estd`, `embr`, `moducom-memory`.  Assumed:
  * spans, `MemoryChunk`s are pointer + length; copies copy; comparisons of
    `estd::layer3::const_string` etc. compare lengths and characters;
  * `sputn` writes as many bytes as fit and returns their number, `sputc` returns
    eof iff the buffer is full; `NetBufWriter::write` likewise writes what fits and
    returns the number, `next()` makes a new chunk;
  * an input streambuf is a chain of segments, `underflow()` and `sbumpc()` as in the
    standard.  What /repo does not decide is a parameter the theorems quantify over:
    `sg` (`char` is signed, so a `char` holding 0xFF equals `eof()`), `neg`
    (`in_avail()` is -1, not 0, at the end of all data), `eat` (the receiver of a
    payload event reads to the end of the data, or the current segment only);
  * `priority_queue::top` is a minimal element for `greater`, ties broken
    arbitrarily: the choice is an argument of the operation, legal iff minimal;
    `push` beyond the fixed capacity (10) is a `Fault`; `erase`/`pop` may reorder
    the rest, which is why the retry theorems speak of permutations;
  * `layer1::vector`/`layer1::stack` hold what was pushed and pushing beyond the
    capacity is a `Fault`; `layer1::optional<int,-1>` has the null value -1;
  * a `layer0::subject` notifies its observers in the order they are listed; a
    `layer1::string<128>` holds 127 characters, appending beyond is a `Fault`;
    finishing an output streambuf cuts the datagram to what was written;
  * `const_string::copy` copies the text and appends nothing, so the observer's own
    terminating zero at index `copied` is past `debug_print[128]` from 128 bytes on;
    `puts`/`printf` print up to the first zero byte, `%u`, `%X` as in the C standard;
  * `embr::DataPump` is two first-in-first-out queues of some fixed size, putting into a
    full one is a `Fault`; its `service` dequeues a datagram, decodes header and token and
    calls the function;
  * `dynamic::ObjStack::alloc` (mc-mem): takes exactly the size asked for from what is left;
    an object that does not fit is constructed outside the memory;
  * mbedtls and lwIP: the results of their calls are arbitrary inputs; a read stores at most
    the room given; the numeric error codes are those of mbedtls 2;
  * `xTaskGetTickCount()` counts ticks modulo 2^32 and `portTICK_RATE_MS` is an unsigned 32 bit
    constant (FreeRTOS);
  * `embr::DataPump::enqueue_out` moves the netbuf into its queue with
    FEATURE_EMBR_DATAPUMP_INLINE and stores a pointer without, `transport_pop` destroys what is in
    the queue; an observer of embr's that takes over a netbuf is left out; moving a
    `std::forward_list` moves its nodes;
  * estd's `raw_instance_provider` (C74) is bytes: copied with the item that contains it, never destroyed; a
    moved-from `NetBufDynamicMemory` has an empty list of chunks and keeps its pointer to the current one.
  * The network of C75 loses, doubles and reorders datagrams but does not change their bytes or addresses.
  * `out_netbuf_streambuf` (C76) stores at the write position and asks for the next chunk at the end of the memory; `shrink` cuts the
    memory at the given length; udp_sendto sends all of it.
  * C78: the client side (`ObsNetSpec`) follows RFC 7641 3.4 without its 128-second clause; it is not in /repo.
  * `ASSERT_ERROR(expected, actual, msg)` fires iff the two differ;
  * `ObjStack` hands out memory from the given allocator; whether copies of one
    context's allocator hand out the same address is not decided by /repo, so the
    dispatcher model has a parameter `separate` and C40 is stated for both.
* Machine assumptions: 8-bit bytes; the header's union of a 32-bit word and four
  bytes is read as its four bytes in memory order and `hton` as in the
  little-endian branch; `int` has 32 bits where a literal width is needed; the byte
  one past the end of a chunk (read by two loops, see findings) is an arbitrary
  `ghost` argument, or 0 where the code reads a fixed array.

## What is modelled

| file in /repo | functions | model |
|---|---|---|
| `src/coap/uint.h` | `UInt::get/set/set_padded/assess_bytes_used`, `uint_get`, `layer2::UInt` | UIntModel |
| `src/coap/token.cpp`, `token.h` | `SimpleTokenGenerator` | UIntModel |
| `src/coap/header.h` | `Header` getters, setters, constructors, `create_response`, `process_request/response`, `Code` | HeaderModel |
| `src/coap-encoder.cpp/.h` | `OptionEncoder::generate_iterate`, `generator_helper`, `generate`, `next` | OptEncModel |
| `src/coap/encoder/streambuf.h` | `StreambufEncoder` | StreambufModel |
| `src/coap/encoder.h/.hpp` | `NetBufEncoder` (header, token, all option overloads, payload, DEBUG state checks) | NetbufModel |
| `src/coap/option-decoder.cpp`, `decoder/option.h` | `OptionDecoder::process_iterate` (byte and chunk) | OptDecModel |
| `src/coap/decoder.cpp/.hpp/.h`, `decoder/subject.hpp` 180-360, `decoder/simple.h` | `Decoder`, `HeaderDecoder`, `TokenDecoder`, `decode_and_notify`, `process_experimental` | DecoderModel |
| `src/coap/decoder/streambuf.h/.hpp`, `subject-core.hpp` | `StreambufDecoder`, `OptionDecoder::process_iterate_streambuf`, `decode_and_notify` | SbDecModel |
| `src/coap/decoder/observer/util.h`, `platform/esp-idf/observer.h`, `platform/lwip/context.h`, `test/rtos/esp32/boilerplate-subject`, `echo-subject` | `UriParserObserver`, `_UriBuilderObserver`, `Auto404Observer`, `VersionObserver`, `build_version_response`, the two servers, `do_notify`, `reply` | AppModel |
| `src/coap/decoder/netbuf.h`, `decoder.h` 32 | `DecoderWithContext`, `NetBufDecoder`, `option_iterator` (with `FEATURE_MCCOAP_SUCCINCT_OPTIONDECODE` = 1) | NetDecModel |
| `test/template/simple-ping-responder.hpp`, `simple-uri-responder.hpp`, `observable-raw-responder.hpp`, `test/posix/discoverable/main.cpp` | the four servers from one datagram to one reply; printing, timing and the data pump left out | RespModel |
| `src/exp/misc.hpp`, `platform/generic/malloc_netbuf.h` | `coap_netbuf_copy` (reset = false, skip not negative), the netbuf operations it uses | CopyModel |
| `src/mc/experimental.h/.cpp` | `ManagedBuffer`; `process_reset` | CopyModel; HeaderModel |
| `test/rtos/esp32/echo/main/udp-coap.cpp` | `udp_coap_recv` (no logging) | EchoModel |
| `src/coap/option.h`, `decoder/option.h`, `src/exp/option-trait.h`, `src/coap.cpp` | option numbers, `get_format`, `option_traits_type`, `get_description(Option::Numbers)` | DiagModel |
| `src/exp/diagnostic-decoder-observer.h` | `DiagnosticMessageObserver` (printf output as bytes; an option number above 63 does not fit the enumeration, it is taken as it is) | DiagModel |
| `src/coap/decoder/subject.h/.hpp` | `DecoderSubjectBase::dispatch`, `dispatch_iterate` and its helpers | SubjectModel |
| `src/exp/retry.h` | `Retry::Item`, `enqueue`, `service_ack`, `service_retry`, `RetryObserver` | RetryModel |
| `src/cbor.h`, `src/cbor/*.h/.cpp` | encoders, `StreamDecoder`, callback `Decoder`, `get_*_experimental` | CborModel |
| `src/coap/blockwise.h` | `OptionBlock` encode/decode | BlockModel |
| `src/coap/observable.h/.hpp` | `ObservableRegistrar`, `ObservableOptionObserver`, notification loop | ObserveModel |
| `src/exp/uripathmap.h`, `uripath-repeater.h` | `match`, `UriPathMatcher2/3`, `CoREData` repeater | UriModel |
| `src/coap-uripath-dispatcher.h`, `mc/experimental-factory.h` | `starts_with`, factory `create` | UriModel |
| `src/coap-dispatcher.h/.hpp`, `coap-uripath-dispatcher.h` | `FactoryDispatcherHandler`, `UriPathDispatcherHandlerBase` | DispatchModel |
| `src/coap/context.h`, `encoder/factory.h`, `decoder/observer/util.h` | contexts, `build_reply`, `TokenContextObserver`, `HeaderContextObserver` | ContextModel |
| `src/platform/posix/sockets-datapump.cpp`, `src/platform/lwip/lwip-datapump.cpp` | `nonblocking_datapump_loop` (without FEATURE_MCCOAP_RELIABLE), as a function of what the network does each turn | PumpModel |
| `test/posix/datapump`, `datapump-raw-uri`, `observable-raw` | the `main` loops; `emit_observe`, `evaluate_emit_observe` | PumpModel |
| `test/template/simple-cbor-responder.hpp` | `simple_cbor_responder`, with `has_payload_experimental` of `netbuf.h` as written there (compiled out) and the missing `payload_experimental` read as `payload` | CborRespModel |
| `src/exp/message-observer.h`, `src/exp/factory.h`, `src/platform/generic/datapump-messageobserver.hpp` | `AggregateMessageObserver` (all four calls it passes on), `FactoryAggregator`, `process_messageobserver` and `process_messageobserver2` | AggregateModel |
| `src/platform/mbedtls/dtls-datapump.cpp`, `dtls.hpp`, `esp8266-timing.cpp`, `test/rtos/esp32/dtls-datapump/main/mbedtls+freertos-datapump.cpp` | `Dtls::setup` and `loop`, `DtlsServer::load_certs`, setup, both `handshake` and `read`, `coap_daemon` with DIAGNOSTIC_MODE, `mbedtls_timing_set_delay` and `get_delay`; the answers of the library are inputs; messages printed other than the data are left out | DtlsModel |
| `src/platform/posix/sockets-datapump.h`, `src/platform/generic/malloc_netbuf.h`, `src/exp/retry.h`, `test/posix/request-con/main.cpp` | `SocketsDatapumpHelper` with FEATURE_MCCOAP_RELIABLE, `equals_fromto`; ownership of netbufs: the destructor and the move of `NetBufDynamicExperimental`, `Retry::enqueue`, `service_retry`, `match`, `service_ack` without FEATURE_MCCOAP_RETRY_INLINE, the sending half of `nonblocking_datapump_loop`; the request of request-con | RetryMemModel |
| `src/coap-dispatcher.h`, `.hpp`, `src/coap/context.h` | `ContextDispatcherHandler` with FEATURE_MCCOAP_INLINE_TOKEN (`on_header`, `on_token`, `interested`) as the observer of `DecoderSubjectBase` (the other build does not compile) | CtxSubModel |
| `test/pio/esp8266/observable-raw/src/lwip+freertos-datapump.cpp` | `coap_daemon` over `LwipDatapumpHelper::loop` and `for_each` | EspObsModel |
| `src/coap-dispatcher.h`, `.hpp`, `src/coap-uripath-dispatcher.h`, `src/coap/context.h` | the contexts `FactoryDispatcherHandler` copies for each factory, `ContextDispatcherHandler` and the static observers of `uri_plus_observer_dispatcher` in its table, tables nested by `uri_plus_factory_dispatcher` | DispCtxModel |
| `src/cbor.h`, `src/cbor/cbor.cpp`, `src/cbor/decoder.h` | `DecodeToObserver::decode`, `get_map_experimental` and the simple values of both decoders; `process_iterate_nested` is compiled out, `Encoder::encode` and the floats do nothing | CborOldModel |
| `src/exp/uripath-repeater.h` | `core_observer`, `node_core_event`, `title_tacker`, both `match` functions on nested tables; a negative count and a full stream are not modelled | UriTableModel |
| `src/exp/retry.h`, `src/platform/generic/malloc_netbuf.h` | the same queue built with FEATURE_MCCOAP_RETRY_INLINE and FEATURE_EMBR_DATAPUMP_INLINE: `m_raw_netbuf` in the items, `con_sent_experimental`, moves of netbufs, one chunk per netbuf. No build in the tree switches both on: `test/unit-tests/mc/opts.h` line 14 defines the first only, for which retry.h 87-89 has an `#error` | RetryInlModel |
| `src/exp/retry.h`, `test/template/simple-ping-responder.hpp` | the retry queue and ping servers connected by a network that loses, doubles and reorders (the network is assumed) | ExchangeModel |
| `src/coap/encoder/streambuf.h` 22-46, 138-387; `src/coap/platform/lwip/context.h` 76-129 | the encoder over a network buffer: operators, manipulators, finalize, the datagram sent | NbEncModel |
| `src/coap/observable.h` 46-129 | `ObservableMetaSession::on_message_transmitted`, read as meant where it does not compile | MetaModel |
| `src/coap.cpp`, `src/coap/header.h` | `get_description` of the states, `operator<<` for them, `to_string` of the type | NamesModel |
| `src/exp/uripath-repeater.h` | `UriPathRepeater` (the uri_path events the inner subject gets) | NamesModel |
| `test/posix/cbor/main.cpp` | `main` | CborPumpModel |
| `test/posix/discoverable/main.cpp` | `coredata`, `extra_link_attribute_handler`, the loop of `main` | DiscoverModel |
| `test/pio/esp8266/datapump`, `datapump-raw-uri`: `src/lwip+freertos-datapump.cpp` | `coap_daemon` | LwipModel |
| `src/coap/context.h` | `TokenContext<false>`, `TokenAndHeaderContext<false, false>` | RefCtxModel |
| `src/coap-encoder.h`, `src/coap/encoder.hpp`, `src/coap/encoder/streambuf.h` | `OptionEncoder` with the pointer to its option: `next`, `resume`, `pause`, `reset`, `get_option_base`; the locals of `option_header` and `option`; `option_generate_byte` | OptObjModel |
| `src/mc/experimental-factory.h` | `find`, `find2`, `Map::find`, `KeyTraits::equals`, `FnFactory::create` over memory, with counts and null functions | FactoryModel |
| `src/coap/blockwise.h` | `option_block_encode` for numbers of any integer type | BlockTypeModel |

Simplifications are stated at each definition.  Not modelled: what the platform ports do
beyond the code named above (Wi-Fi and socket set-up, threads), logging, `#ifdef UNUSED`
code, and the encoders and pipelines kept only for it (`BlockingEncoder`,
`BufferedEncoder`, `coap_transmission`), with the programs written against them
(`test/simple_server`, `test/pio/simple-receiver.esp32`, `simple_receiver.esp8266`);
`test/rtos/esp32/dtls-dataport`, which after one `handshake()` (C65) only asks
`is_pending` for ever; the .net and node programs.  What the unit tests expect is computed
with the model in `Tests*.v`.

## The properties

| id | files | how it is modelled and proved |
|----|----|----|
| C01-C03 | UInt* | the byte loops as recursion over bytes; induction against the Horner value `be`; C02 quantifies over all competing byte strings; divergence on negative input by induction on the fuel |
| C04 | UInt* | counter modulo 2^32 over any number of calls, distinctness from C01's injectivity |
| C05-C07 | Header* | byte 0 by a 256-sweep lifted with `forallb_forall`, `lor/land` as arithmetic; induction over lists of setter calls; `last_of` is the independent specification |
| C08, C09 | OptEnc*, OptSpec | symbolic execution of the byte-at-a-time state machine; `opt_head` is the RFC grammar of one option header; exact characterisation by case analysis over extension classes |
| C52 | OptEncModel, Pull* | the states between two bytes as a path relation; loop invariant over the value position; divergence because a state repeats |
| C10-C13 | OptDec* | `parse` (RFC grammar by structural recursion over bytes) is the specification; simulation by induction over bytes, over options, over chunks; potential function for termination |
| C14-C18, C21 | Decoder* | `msg_bytes`/`msg_events` are the RFC form and the expected report; composition of C10 with the outer state machine; `phase_run` automaton as invariant for arbitrary input |
| C19 | Decoder*, CutProofs, HeadCut* | C14's refinement at the ends `EndInValue`, `EndInHead`; the end-of-message iterations run symbolically from every option state (`gpath`); `cut_num`, `cut_len` state the reported number and whether it counts as complete; HeadCutProofs: the same after any bytes that read as options, by induction over the parser |
| C20 | Chunk* | the option states across chunk ends; simulation of `dec_chunks` against `parse` of the concatenation, value parts by offsets in the cut |
| C53 | SbDec*, HeadCut* | position in the chain as an offset into the concatenation (`at_pos`); header and token phases over `skims` (which bytes are dropped), options as in C20, payload by segments; padding relation for unsigned `char`, divergence by induction on the fuel |
| C55 | NetDec* | the places of the decoder between two iterator steps as a relation (`at_place`), one step of the loop as a function on places, induction over options three at a time (`shown_ind`); `shown` is the list of visited options; the bare header on stale memory, which counts as an empty payload, is a case of its own (`C55_stale`), so the other theorems ask nothing of the memory (`C55_any_memory`) |
| C56 | Resp* | the visited options of C55, the encoder results of C46 and the matcher of C37 composed; which Uri-Path values can be visited by induction three options at a time (`values_cases`): two visited ones imply an empty one, which ends the matching |
| C57 | Copy* | induction on the turns of the outer loop; bytes, chunk sizes and free space (`dest_bytes`, `sizes`, `space`) as invariants; divergence by the same induction |
| C58 | Copy* | filling as induction over segments, `drift` is the exact reader position after any number of `next()`; size_t wraparound explicit |
| C59 | Echo* | six single steps of the decoder of C53; token case: the last step is never looked at; token-less case: a successful run of C53 has successful first six steps (`run_step`) |
| C60 | Diag* | the registry of the RFCs as a separate list (`registry`); case analysis over all numbers |
| C61 | Diag* | events of C14; number output is characterised as the only numeral without needless zeros (`canon_unique`, induction from the last digit); hex dump by induction over bytes; bare messages by the classification of C79 (`C61_bare`) |
| C54 | App* | C53's report run through the observers one event at a time, the matcher by C37, the reply by C41 and C22's encoder, in a smaller buffer by C23; `answer` is the expected datagram; the loop of replies is a fixed point of the server |
| C22, C23 | Streambuf*, Codec*, OptEncProps | composition of C08 and C14; prefix invariant over lists of encoder calls at two capacities |
| C24, C45, C46 | Netbuf*, NbPieces* | state machine with its DEBUG checks; resumption over arbitrary lists of chunk capacities by induction; divergence for every fuel |
| C25-C30 | Retry* | histories as an inductive relation (any legal tie-break), invariants relating queue items to the send operation they stem from; C29 by a potential (three per item); C26_delta by cases on the three bits of the counter |
| C31-C33, C42-C44 | Cbor* | `rfc_head`, `rfc_int_head`, `items_bytes` are RFC 7049; decoder state machine by case analysis on size class at any position, induction over item lists |
| C34 | Block* | arithmetic `NUM*16+M*8+SZX` on top of C01 |
| C35, C36 | Observe* | `sends` computes from the operations alone who must get what; induction over operation histories of any number of subjects; the application's part of a notification is an arbitrary function |
| C37, C38 | Uri* | `ordered`, `chain` (inductive), `forest_paths` (tree recursion) are the specifications; depth-first serialisation by nested induction on trees |
| C39 | Uri* | induction over strings |
| C40 | Dispatch* | handlers are arbitrary state machines over a shared world; invariants over call lists |
| C49-C51 | Dispatch*, Route* | `agrees`, `last_match`, `first_item` on strings are the specification; a request as a list of observer calls (`msg_calls`) is cut at the deciding segment, invariants for "still waiting", "chosen" and "refused" over call lists; C51 composes C49 with itself |
| C41 | Context*, Reply* | composition of C14, C06 and the encoder model |
| C47, C48 | Subject* | `flat` forgets how values are cut; invariant "what has been told plus what this state still owes is the message" over bytes and chunks; C47_terminates by a rank on the state graph |
| C62 | Pump* | refinement of the loop to a waiting line (`line`, `news_of`) by induction over turns; the servers by C56 and the notifications by C35's lemmas, induction over turns with the list of clients as invariant |
| C63 | CborResp* | simulation of the loop by C43's `c_loop` item by item (induction over fuel and over items); a measure for termination; monotonicity in the memory behind the payload for the over-reads; the reply by C55/C56's lemmas |
| C64 | Aggregate* | induction over the pack and over the calls to one closed equation; induction over the index for the factories; the queue by induction over pairs of messages with C47/C48's lemmas and an invariant of the decoder memory |
| C65 | Dtls* | both directions between the program and a relation of nine cases, by induction over the answers of each repeated call; the daemon by induction over the turns against an inductive relation; handshake() by induction over the attempts |
| C66 | Dtls* | modular arithmetic: the difference of two readings of the wrapped counter is the time gone by modulo 2^32 |
| C67 | RetryMem* | invariant over the calls: the retry queue is empty and sent ++ waiting = enqueued; a turn by the exact results of `header()` and `token()` |
| C68 | RetryMem* | ownership invariant (a live chunk is held by its netbuf or by the first entry of the pump made from it), by induction over the history; refinement of the retry queue to that of C25–C30 step by step |
| C69 | CtxSub* | from C47's delivery: the calls by their atoms; interest by the calls seen so far |
| C70 | EspObs* | induction over the turns; wrapped differences and division in `N` |
| C71 | DispCtx* | an invariant of the store of contexts and pointers, kept by every observer of the library (induction over how tables are built); rounds of a flat table; refinement of C40's dispatcher |
| C72 | CborOld* | `heads` (inductive relation: a text as one head after another) is the specification; simulation byte by byte, induction over the heads; every text has heads by strong induction |
| C73 | UriTable* | the observer's walk is the walk of C38 with the listing as accumulated text (induction over the rows), then C38; the two-level lookup refines the flat one of C37 by induction over the relations |
| C74 | RetryInl* | ownership as an invariant of every step (`sound`: one owner, owners' memory live), a lost chunk stays lost; the observer's way by a counting invariant over items and pump; the careful way by an invariant that puts each message into one of seven phases, from which times, safety and giving back are read off; refinement of the queue by unfolding one step |
| C75 | Exchange* | an invariant of runs ties each datagram to the operation that sent its message and each reply to a datagram handled; what is under way, handled and lost is a permutation of what was put there and doubled, by induction over the run; a budget (handled + under way + retransmissions left <= 4 sent + doubled); a delivery keeps "a copy or a reply is under way" or takes the item, by induction over the deliveries |
| C76 | NbEnc* | the network buffer simulates the plain buffer of C22/C23 of the same total size call by call; operators are calls without their results; the exchange composes this with C54 and C14/C15; what goes out unfinalized by an invariant on the memory beyond the write position |
| C77 | Meta* | composition of C55 (header), C05 (token length), NetBufEncoder and C57 (copy): what goes out exactly, for every pair of token lengths; the round (`overwritten`, any token lengths) by induction over the sessions |
| C78 | ObsNet* | C35 (what is sent) composed with C14 (whole messages decoded) for any list of what was sent; the client's view by induction over the arrivals with the invariant that it holds the largest number so far; single registration by induction over the history |
| C79 | Isol* | a relation between two decoder objects that names, per state, the fields already written in the current message; every step of the option decoder, the chunk loop, process_iterate and decode_and_notify preserves it and shows the same; a second relation for the phase before the option decoder is entered; session by induction with C16. The stream decoder too (`C79_stream_calls`, `C79_stream`). |
| C80 | Names* | case analysis over all states and types |
| C81 | Names* | C14 and C20 composed with the repeater; length argument for the converse |
| C82 | Canon* | strict parser (CanonSpec) proved inverse to the serialiser in both directions by induction; composed with C14; injectivity of the report; all ways of writing options (`spelled`) by induction over them through C14_refines_parser, the stray half header by C19's cut header lemma |
| C83 | Any*, HeadCut* | `reads` (AnySpec) states the reading of a byte string by the RFC parser of OptDecSpec; C53_refines_parser, C53_bare, C53_padded_refuted, C53_long_token_refuted and the exact cut header report (HeadCutProofs, by induction over the options before the cut) give the events, C54's server run gives the reply; uniqueness from the place of the cut |
| C84 | NetAny*, NetCutProofs | `unreadable` (NetAnySpec) says by the RFC parser where a reserved nibble stands; the iterator is walked with the invariant `alive` and the measure `mu`, its fate tied to the decoder run of C16/C19 (options_run, run_inhead), so it stops exactly there; values are shown to be pieces of the datagram; the countdown of a cut value (`counting`) is followed by induction, `quiet` is the arithmetic condition, and `quiet_small` bounds it |
| C85 | PumpAny* | `course` (PumpAnySpec) is an inductive description of a run with no queues in it, `pinged` the datagrams that have a reply; C84, C55 and C56 together settle every byte string (ping_any), induction over the turns gives the course, and it is unique; for the other servers an invariant over the turns (`main_sends`: who may be sent what, given what was heard) |
| C86 | CborAny* | `printed` (CborAnySpec) is an inductive reading of the bytes with no machine in it; each of its cases is matched by a run of the loop (`printed_runs`: induction over the reading, and over the bytes of an argument), some case always applies and runs are unique, so it is an equivalence; the datagram: the iterator leaves the options (`leaves`) in a state from which C28's run of the decoder reads off the payload |
| C87 | CborPump* | `told` (CborPumpSpec) says which datagrams have a reply, with C86's `printed` for the payload; C86, C63 (header and token alone) and a refusal for other types settle every byte string (cbor_any); the course is C85's, whose induction takes any server and memory that changes each turn |
| C88 | Visit* | `stops` (VisitSpec) reads the bytes option by option with OptDecSpec's `take_ext` and gives the places, `visits` takes one in three; `follows` relates a decoder to such a trail, one iteration per place (next_follows, follows_stops by induction on the options, with the cut ends counted down); the servers then follow from their text and table lemmas, and a datagram without header and token from C55 |
| C89 | Discover* | `disc_told` (DiscoverSpec) gives the reply with the paths and the RFC 6690 text written out; C37 for the forest of the table decides which node a path reaches, the text is computed once and fits any token; the course is C85's with C88 for each datagram |
| C90 | Lwip* | `daemon` (LwipSpec) is the course of a program that never exits; induction over the turns for any server without memory (daemon_any, daemon_once); each datagram by C84/C56 (ping) and C88 (uri) |
| C91 | Group* | the same `agrees`/`last_match` over the concatenation of the groups; invariants "still asking" (an inner dispatcher without a choice answers Currently, so it is made anew for each call) and "chosen" (outer keeps the inner, which keeps its handler) |
| C92 | Watch* | `watched` (WatchSpec) is the course: queue, clients, next number, time of the last round; induction over the turns with the invariant that no client has more notifications than there were; each datagram by C88_observe, each round by C35's exact notification; determinism by uniqueness of numerals and minimal integers |
| C93 | Schedule* | `waiting`, `due_at`, `acked` (ScheduleSpec) look at the history only; invariant: the items of the queue are exactly the waiting messages, with their due times (`queue_waits`), by induction over the history on top of C26's |
| C94 | RefCtx* | the union of token and option decoder as memory that each step may overwrite (`mem_after`); the run without it is the one of C14 (`ref_erased`); induction over the iterations with the invariant that the upper bytes of the option state are zero |
| C95 | ExchSchedule* | C93 carried over to the exchange of C75: what the client read is a reply to something sent before (`read_reply`), so that it was acknowledged means that a reply was read (`acked_replied`); the last part from the accounting of C75 |
| C96 | InlSchedule* | each step of the inline queue (C74_queue) is an operation of C25-C30 once the items are renamed from chunks to the operations that sent them (`finv`, by induction over the steps); what C93 says of that history is then told back in terms of the events |
| C97 | OptObj* | a program in which the option is always there (`served`, told from the calls made so far) is that many turns of the state machine on it, by induction over the program; C52's path through the states gives the bytes of every prefix; the pointer versions of the two encoders are proved equal to the models that pass the option along |
| C98 | Factory* | `first_of`, `none_of` on the table of strings held in memory; one induction over the items for any comparison that decides a predicate, instantiated for strcmp, prefix and number |
| C99 | BlockType* | `in_type` and the widths are those of C++; shifts in the promoted type, then C34; narrow readings from the big-endian value |

All properties are `proved` in MANIFEST.json in the sense of their statements in
properties.jsonl: where the statement names a full claim as false, a `_refuted`
theorem shows that and the remaining theorems show what holds.

## Findings

Each is a theorem (mostly `_refuted`) about the code as modelled.

Integers: `UInt::get<uint8_t>` returns the first byte of a longer value (C01);
`UInt::set` of a negative `int` never returns (C01), which makes the 2^31-th
observe notification hang (C35); `layer2::UInt::set` and `set_padded` write out of
bounds when the value does not fit (C03).

Header: the empty message 0.00 counts as a request, classes 1, 6 and 7 as responses
(C06).

Option encoder: values of 13 bytes and more are mis-encoded except for a few
lengths; deltas 242..268 and from 65266 are mis-encoded (C08, C09).  The boundary
constant is 242 where RFC 7252 has 269, and the end of the length extension is
recognised by comparing the wrong byte.  `generate()` never returns for an empty
value and repeats a value of more than 256 bytes for ever (C52).

Option decoder and decoder: declared lengths 65536..65804 wrap (C10); a token
length nibble 9..15 overflows the token buffer (C18); a datagram that ends inside
header or token is never finished (C16); truncated options are accepted (C19); a
reserved nibble is an assertion (C11); a reused decoder reports a phantom payload
for a 4-byte message (C15); option values and payload in later chunks are never
delivered (C20); `process_experimental` never delivers `completed` (C21).

StreambufEncoder: the array and empty-string overloads report success when cut (C23).

NetBufEncoder: after a zero-length option the next one is silently dropped or the
call never returns; empty values assert (C24); the result of a cut call does not
tell what was written; an exactly fitting header is reported as not written, and an option value given in
several calls (last_chunk false) gets the length of its first piece (C45);
any payload asserts in a DEBUG build (C46).

Retry: three retransmissions rather than four (C27); a wrapping clock (C26); a
retransmission seen by the observer is tracked again, so an acknowledged message
may go on being sent (C28); the queue holds ten (C25).

CBOR: 24 is mis-encoded, overlong heads overrun `layer1::Encoder`, list elements
are raw bytes (C31); small negatives read as positive, plain encoder off by one,
least value of a type of 32 bits or more overflows (C33); decoder heads 27..31 store out of bounds (C43), a
byte past the data is read (C42, C43); old decoder reads 25..255 as 24 and asserts on
eight-byte and reserved arguments (C44).

Blockwise: block number 0 and the empty value are out of bounds (C34).

Observe: deregistration does nothing, double registrations, `is_registering` is
never set, an empty Observe value asserts (C36); sequence numbers grow past three
bytes (C35).

URI: `UriPathMatcher3` only goes forward through the table, is good for one path
and is confused by duplicate siblings (C37); links are wrong for tables not in
depth-first order and the stack overflows at depth 11 (C38); the dispatcher's
`starts_with` matches short and empty segments, prefixes shadow longer keys, UTF-8
keys never match (C39).

Dispatcher: the last handler that answers always wins, the chosen one is never told
completion, parts of values are offered as whole options; if the context copies
share memory the chosen handler is overwritten by the next (C40), so a request is lost
unless its handler is the last (C49); `/v` reaches the handler of `v1` (C49); the
aggregate observer serves `/x/v1` as `/v1` and hides empty options (C50).

Replies: `build_reply` acknowledges NON requests, is cut silently, and reads out of
bounds for token lengths above 8 (C41).

Stream buffer decoder: with signed `char` a byte 0xFF in header or token is lost, so
the message is read as another one, and a cut header loops for ever; with unsigned
`char` what is missing of header and token is made up as 0xFF, and an empty datagram
overruns the token buffer; with `in_avail()` -1 a final empty option is read out of
bounds (C53).

Servers: acknowledgements and resets are answered like requests, so the 4.04 or 2.03 of
one server makes another send the same back for ever; a Uri-Path value that crosses a
segment boundary is routed by its first part; a path of more than 127 characters
overruns `_UriBuilderObserver`; the echo server's buffer of 8 bytes, unless it grows by
itself, cuts a token of more than four, and the boilerplate server's of 32 the version text
(C54).

Netbuf decoder: the option iterator shows the first of every three options without its
value, skips the second, and does not see a sole option with a value and no payload; a
short header asserts and a token length above 8 overruns the token buffer; `uint8()` of a longer value is its first byte (C55).

Example servers: a lone GET /test is answered 4.04, Observe 1 as first option registers
again, Observe as second option is not seen, no request reaches the links of
/.well-known/core, replies without a path end in a bare payload marker, an
acknowledgement stops them by an assertion, and with the assertions of DEBUG builds no
reply with a payload is ever sent (C56).

Netbuf copy: never returns when the data does not fit and reads out of bounds when the
skip passes the first chunk (C57).  Managed buffer: from the third segment on a reader
is at the wrong place, `reset(true)` keeps the boundaries, the eleventh one overruns the
array (C58).  `process_reset` does not make an empty message (C07).

Echo server: acknowledges anything, its own replies included; on a platform with signed
`char` a short datagram or a message id ending in 0xFF gets leftover memory back; token
lengths above 8 overrun the token buffer (C59).

Options: Block1 and Block2 have each other's number; `get_format` and the traits lack
several registered options (C60).  The diagnostic observer writes past a stack buffer
for text options of 128 bytes and more (C61).

Posix servers: an empty UDP datagram makes `recvfrom` return 0, which is treated as an
error and ends the process (C62).

CBOR server: `simple-cbor-responder.hpp` does not compile at this commit
(`has_payload_experimental` is inside `#ifdef UNUSED`, `payload_experimental` does not
exist).  As written it prints memory behind the datagram for a text string that announces
more than there is (`66 68` prints five bytes of the buffer's former content), skips
lengths modulo 65536 and overruns the decoder on an 8-byte argument (C63).  After a message
with payload a bare header makes the CBOR server print what lies behind the datagram
(`C63_stale`).

Aggregates: `AggregateMessageObserver` constructs every observer anew for every call and
never frees the object stack; it passes on neither payload nor completion.
`process_messageobserver` never resets the decoder of its subject, so of a queue of
messages with payload every second one is taken from the queue without a single call; it
looks at the first chunk only, and the address it puts into a context goes nowhere (C64).

DTLS: `Dtls::loop` sends the rest of a partial write never, reads at most 8191 bytes of a
record, and waits for a silent client for ever (READ_TIMEOUT_MS is defined and not used);
one client's failed handshake makes the daemon close the socket for all.
`DtlsServer::handshake()` returns only when an attempt fails and `DtlsServer::read` hides
both errors and the number of bytes (C65).

Timer: `mbedtls_timing_get_delay` compares with `>` where the library's contract is `>=`, so a
delay is reported one tick late (C66).

Reliability: with FEATURE_MCCOAP_RELIABLE the sockets helper never hands anything to Retry, so a
confirmable message is sent once only; every datagram of fewer than four bytes, or with a bad
token length, ends its loop in an assertion; acknowledgements are accepted from any port of the
address (C67).

Retry keeps pointers to netbufs that the pump destroys after sending them: a retransmission, or
the next acknowledgement, reads freed memory.  C25-C30 describe the queue as if the netbufs
stayed; C68 shows that they do not in any build of the pump in /repo.

The context filled while decoding: a message that ends behind its header or token leaves the
context without it, so a CoAP ping is never recorded; a context used for a second message is
finished as soon as the header is in and gives the token of the first (C69).

The ESP8266 observable example never looks at its incoming queue, so it registers nobody and
sends nothing until the queue overflows, and its one-second test takes P * P seconds with a tick
of P milliseconds (C70).

`FactoryDispatcherHandler` copies the request context for each factory call and destroys the copy
at the end of the loop body: a context handler in its table never fills anything, and the static
observers of `uri_plus_observer_dispatcher` always work with a dangling context pointer (C71).

`CBOR::DecodeToObserver::decode` never calls its observer, on no text: the decoder reaches `Done`
only in calls that return true, and the loop looks at the state only after calls that return false.
`get_map_experimental` leaves `*result` unset on success (C72).

`core_observer` ends each link with a line end instead of separating links by commas, so the text is no
CoRE link list. Titles are not escaped. The unit test of the nested tables passes `sizeof(relations)` as the
number of relations: harmless only because the key is present (C73).

Inline retry (C74): `service_ack` erases an item whose netbuf is never destroyed: the memory of every acknowledged
message is lost. `RetryObserver`, told of retransmissions too, makes a new item for each of them: an unanswered
message is never given up, and after at most fourteen transmissions the queue of ten overflows. The unit tests
`retry.service - isolated` and `- ack`, built this way, read freed memory; `con_sent_experimental` loses its netbuf.

Exchanges (C75): the ping server handles and answers every copy of a message anew, and a reply to the last
retransmission cannot be matched, since the item is dropped with that retransmission (RFC 7252 sections 4.5, 4.2).

Operators and finalize (C76): the stream operators drop the results of the calls, so a message too long for the network
buffer is sent with its payload cut and nobody is told; the finalize of any stream buffer type other than
out_netbuf_streambuf itself does nothing, and a network buffer sent that way carries old memory as payload.

Passing on a notification (C77): `ObservableMetaSession` sets the new token length in the header before it computes how much
of the old message to skip (observable.h 92, 103), so tokens of different lengths corrupt the message; without
FEATURE_EMBR_DATAPUMP_INLINE it enqueues the old netbuf instead of the rewritten one (110); all copies share a message id.

Registering again (C78): `ObservableRegistrar::do_register` does not look for the same token and endpoint, and a new
session counts from 1, so a client that refreshes its registration is sent two series under one token, and takes a
notification of the later round in the new series for an old one.

Left-over state (C79): of everything a decoder object holds from earlier datagrams (of other clients) exactly one bit can reach
the application with a later one: whether the option decoder last stopped at a payload marker, and only with a four-byte datagram.

`UriPathRepeater` (C81) does not look at the option number nor at the completed flag: a Uri-Query or a Content-Format goes on as a
path segment.

An option delta is added modulo 2^16 (C82): the datagram 40 01 00 01 E1 FE FE 61 (option 65547, which does not exist) is reported as
Uri-Path `a`, exactly like 40 01 00 01 B1 61. A filter in front of the device that reads the datagram strictly sees no Uri-Path.
A stray byte D0 after the last option is reported as one more empty option.  Options in descending order can be written the same way:
B1 61 E1 FE EB 68 is reported as Uri-Path `a`, then Uri-Host `h`.

Malformed requests are answered (C83): GET /v1/api/versionx that loses its last byte gets the version (the cut value `version` is matched,
its `completed` flag is not looked at), Uri-Path written as option 65547 is routed like option 11, and with unsigned `char` the three bytes
42 01 12 get a 4.04 with message id 0x12FF and token FF FF.

A cut Observe option registers many times (C84): seven bytes, a header, a 1-byte token and `6D 21` (Observe, 46 bytes
announced, none there), make observable-raw-responder add sixteen sessions for the sender; with 47 or more announced the server is
stopped by the assertion in get_value, because the length being counted down is read as a nibble of 15.

Any datagram that cannot be answered ends the ping program (C85): an acknowledgement, three bytes, a token length above 8; an
empty datagram or one failed send makes it exit.

Five bytes of payload after any valid items stop the CBOR server wherever its memory ends (`C86_wide_refuted`).

One valid message ends the CBOR program (`C87_goes_on_refuted`).

A request of one option byte, 0xBE, stops the uri server although the option is not reserved (`C88_readable_refuted`); 0x6D, one byte, registers an observer six times (`C88_case`).

After any traffic one request of one option byte ends the uri program (`C89_goes_on_refuted`).

An empty datagram stops the lwIP daemons (`C90_goes_on_refuted`).

Dispatchers made directly by a dispatcher forget that they were refused: responses and later path segments are routed (`C91_one_table_refuted`).

The observe program stops at the eleventh registration, also if one client only repeats its own (`C92_repeated_refuted`, `C92_eleventh_refuted`), and at a round with more clients than places in the queue (`C92_crowd_refuted`).

A message sent twice needs two acknowledgements: after one it is handed out again (`C93_twins_refuted`).

A context without inline token (`TokenContext<false>`) points into the union of `DecoderBase`; as soon as an option or a payload follows, the first three token bytes read as zero and replies carry a wrong token (`C94_token_refuted`).

Over a network that loses a message four times it is forgotten with the fourth transmission and nobody is told (`C95_lost_refuted`).

The option encoder does not notice when it is resumed with another option (C97), and a
`StreambufEncoder` keeps a pointer to a local of `option()`, which `option_generate_byte()` would read (C97).

A table lookup cannot tell an entry with value -1 from none, an entry with a null function
hides later ones, and a chunk is matched by prefix where a C string is matched exactly (C98).

Block numbers of a signed type overflow from 2^27 on, and reading a block number into 16 or 8 bits
loses more than the type would have to (C99).

Dispatcher: more than ten factories overrun the state array (C40).  CBOR item arrays are
right only if every element is below 24 (C31).

Legacy decoder subject: without payload the last element is lost and completion is
never told (C47); a second message on the same object is ignored (C48).

## Comparing the model with the unit tests

`TestsMsg.v`, `TestsCbor.v`, `TestsApp.v` and `TestsUnity.v` take the inputs of the tests in
`test/unit-tests` and `test/unity` and compute with the model what the tests require of the code.  They
are single cases, no proofs; their purpose is to catch an error of transcription in the
model, since the code cannot be run here.  They cover the decoders and encoders, option
traits, block options, tokens, CBOR, path matchers, factories, the dispatcher, contexts,
`ManagedBuffer`, netbuf copying and Retry.  Every expectation of a test that is compiled
holds in the model.  One expectation of the netbuf decoder suite, which is compiled
out, does not hold for messages with two options: the decoder stops at `OptionsDone`
there, as C55 states.  `TestsApp.v` leaves out two of the four factories of the
dispatcher test, which do not take the request.

## Testing the theorems

`seeded/LOG.jsonl` records deliberate wrong edits of the model (made in scratch
copies), the theorems that stopped proving, and what was tightened when none did.

How to read `failed`: when a proof script stops running, the harness admits that lemma
(`broken_proofs`) and lists every theorem that then depends on it.  This shows that the
existing proof no longer goes through.  It does not show that the statement has become
false, since a script may break for reasons of form.  `examples_failed` lists concrete
cases that compute something else under the edit, which is evidence of the stronger
kind.  Entries whose note says `hidden survivor` or `script breakage only` broke scripts
without any statement having become false.  The other entries without a failed example
have not all been checked by hand.  Claims were written before the runs; where one was
reworded afterwards the original is in `claim_before_run`.
