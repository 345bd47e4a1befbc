{"id": "C01", "title": "CoAP uint values survive encode/decode", "statement": "Encoding any unsigned integer below 2^64 with UInt::set and decoding the bytes with UInt::get at a type wider than 8 bits yields the integer modulo the type's range, so the same integer if the type is wide enough. At 8 bits values below 256 survive. Full claim (false): narrowing to 8 bits also yields the value modulo 256; it yields the most significant byte of every positive value. For a negative input of signed type the loop of UInt::set that counts the bytes never ends.", "quantifier": "every unsigned value and every return-type width", "why_tests_cant": "2^32 (or 2^64) values times widths; tests sample a handful", "anchors": ["src/coap/uint.h: UInt::set, UInt::get, internal::uint_get, UInt::assess_bytes_used"]}
{"id": "C02", "title": "CoAP uint encoding is the unique shortest one", "statement": "The bytes produced by UInt::set for a value never start with a zero byte, zero is the empty string, and any byte string denoting the same value is at least as long; equal length implies equal bytes.", "quantifier": "every unsigned value and every competing byte string", "why_tests_cant": "quantifies over all alternative encodings", "anchors": ["src/coap/uint.h: UInt::set, UInt::assess_bytes_used"]}
{"id": "C03", "title": "Fixed-width integer writers write exactly the low-order bytes, big endian, zero padded", "statement": "UInt::set with an explicit length and set_uint24_t write exactly the requested number of bytes whose big-endian value is the input modulo 256^length; set_padded does so for values that fit and otherwise writes outside the buffer; layer2::UInt::set is exact within its capacity and otherwise writes outside it. The readers of layer2::UInt give the big-endian value modulo the width they return for as many bytes as they accept, get_uint8_t only for exactly one, and assert otherwise.", "quantifier": "every value and every output length", "why_tests_cant": "boundary between fitting and non fitting values for every length", "anchors": ["src/coap/uint.h: UInt::set(input,output,len), UInt::set_padded, layer2::UInt::set_uint24_t"]}
{"id": "C04", "title": "Generated tokens do not repeat", "statement": "Any two tokens generated by one SimpleTokenGenerator within 2^32 consecutive calls are different byte strings, each is at most 4 bytes long, and after 2^32 calls the sequence repeats.", "quantifier": "every starting counter and every pair of call indices less than 2^32 apart", "why_tests_cant": "pairs of calls among 2^32 cannot be enumerated by a test", "anchors": ["src/coap/token.cpp: SimpleTokenGenerator::generate", "src/coap/token.h: SimpleTokenGenerator"]}
{"id": "C05", "title": "Header fields are independent storage cells", "statement": "After any sequence of field setters (type, code, message id, token length <= 8) every getter returns the last value written to that field, and fields never written keep the value they had; the version stays untouched.", "quantifier": "every initial 4-byte header and every finite sequence of setter calls", "why_tests_cant": "all 2^32 headers and unbounded call sequences", "anchors": ["src/coap/header.h: Header::type, code, message_id, token_length, version"]}
{"id": "C06", "title": "Header wire layout", "statement": "The four bytes of a header with given version, type, token length, code and message id are exactly the layout of RFC 7252 section 3 (2+2+4 bits, code, big-endian message id).", "quantifier": "every combination of field values", "why_tests_cant": "2^32 combinations", "anchors": ["src/coap/header.h: Header, experimental::hton, nto_uint16"]}
{"id": "C07", "title": "A created response header correlates with its request", "statement": "create_response on a CON or NON request yields a header with the request's version, token length and message id, the requested code, type ACK for CON and NON for NON; for ACK and RST input the assertion fires. process_response answers only CON, with an ACK carrying the same id and token length. process_reset yields type RST with the input's message id and leaves version, token length and code of the output alone. Full claim (false): its result is an empty message; it is one only if the output had no code and no token.", "quantifier": "every 4-byte request header and every response code", "why_tests_cant": "all header values", "anchors": ["src/coap/header.h: process_request, create_response, process_response"]}
{"id": "C08", "title": "Option header encoder emits RFC 7252 options (short values)", "statement": "For every option whose value is shorter than 13 bytes and whose number exceeds the previous one by at most 241, or by 269 to 65265, the encoder emits exactly the RFC 7252 section 3.1 byte sequence, and the option-number tracker advances, over any sequence of such options. The set of (delta, length) pairs for which the header comes out right is exactly characterised.", "quantifier": "every sequence of options satisfying the guard", "why_tests_cant": "unbounded option lists and 16-bit numbers", "anchors": ["src/coap-encoder.cpp: generator_helper, OptionEncoder::generate_iterate", "src/coap/encoder/streambuf.h: StreambufEncoder::option"]}
{"id": "C09", "title": "Option header encoder on values of 13 bytes or more", "statement": "Full claim (false): an option of any length below 65266 is encoded as RFC 7252 demands. What holds: of the lengths 13..241 only 26 is encoded correctly, and only when the delta needs no extension; from 242 on only lengths 269..65265 whose low extension byte is 13 or 14 and whose high one is not 13, again with an unextended delta.", "quantifier": "every option length of 13 bytes or more, every delta", "why_tests_cant": "the failing set is infinite from a test's point of view and depends on two parameters", "anchors": ["src/coap-encoder.cpp: OptionEncoder::generate_iterate case OptionLength"]}
{"id": "C10", "title": "Option decoder recovers every RFC 7252 option list", "statement": "On every byte stream the option decoder does what the RFC 7252 grammar says: complete options are reported with their absolute numbers, lengths and value positions, and the end (marker, clean, inside a header, inside a value, reserved nibble) is recognised. In particular the encoding of any list of options with non-decreasing 16-bit numbers and values up to 65535 bytes is read as exactly that list. Full claim (false): this extends to the RFC's maximal length 65804; lengths from 65536 on are kept modulo 2^16.", "quantifier": "every option list and every trailing input", "why_tests_cant": "unbounded lists, nine combinations of extended delta and length forms", "anchors": ["src/coap/option-decoder.cpp: OptionDecoder::process_iterate", "src/coap/decoder/option.h: get_value"]}
{"id": "C11", "title": "Reserved option nibbles never yield an option", "statement": "When an option's delta or length nibble is 15 (and the byte is not the payload marker) the options before it are reported, none is reported for it, and the decoder hits an assertion; in every reachable state no other byte makes it assert (other than being fed after the payload marker).", "quantifier": "every decoder state reachable, every following input", "why_tests_cant": "all prefixes that lead to the reserved nibble", "anchors": ["src/coap/option-decoder.cpp: processOptionSize"]}
{"id": "C12", "title": "Splitting the option bytes over chunks does not change decoded options", "statement": "For any way of cutting an option byte stream into non-empty chunks, the option decoder ends in the same state with the same accumulated option number and length, and visits the same sequence of options, as for the unsplit stream.", "quantifier": "every byte stream and every cut into chunks", "why_tests_cant": "2^(n-1) ways to cut n bytes", "anchors": ["src/coap/option-decoder.cpp: OptionDecoder::process_iterate(chunk, Holder*)"]}
{"id": "C13", "title": "Option chunk processing always makes progress and stays in bounds", "statement": "Every call terminates, consumes at most the bytes offered, never writes outside its 4 byte scratch buffer, and repeated calls on a non-empty chunk either finish the chunk, find the payload marker or hit the reserved-nibble assertion.", "quantifier": "every decoder state reachable from construction, every chunk", "why_tests_cant": "termination and memory safety over all inputs", "anchors": ["src/coap/option-decoder.cpp: OptionDecoder::process_iterate"]}
{"id": "C14", "title": "Whole-message decoding is exact", "statement": "For every well-formed message (token up to 8 bytes, options as in RFC 7252, optional non-empty payload, at least one option or a payload) presented as one chunk, decode_and_notify called until Done delivers header, token, option start, each option with its absolute number and complete value, options completed, payload, completed: exactly once each, in that order.", "quantifier": "every well-formed message, every previous content of decoder memory", "why_tests_cant": "unbounded messages and memory contents", "anchors": ["src/coap/decoder.cpp: Decoder::process_iterate, Decoder::option", "src/coap/decoder/subject.hpp: decode_and_notify"]}
{"id": "C15", "title": "Header/token-only messages and stale decoder state", "statement": "A message of header and token only is reported without a payload event; a message of a header alone is reported with a payload event exactly if the option decoder's storage reads as Payload; so a reused decoder that just finished a message with payload reports a spurious empty payload for a following 4-byte message, and one that finished a message without payload does not.", "quantifier": "every header/token-only message and every prior decoder storage", "why_tests_cant": "depends on stale memory, not on the message", "anchors": ["src/coap/decoder.cpp: Decoder::process_iterate cases OptionsStart, OptionsDone"]}
{"id": "C16", "title": "Decoding terminates with the cursor in bounds on arbitrary input", "statement": "For every byte string whose token length nibble is at most 8 and which is long enough for header and token, presented as a single last chunk, the decoder reaches Done, with the whole chunk consumed, or an assertion, after a number of iterations bounded by an explicit function of the input; in every call the cursor never decreases and never passes the end of the chunk. Full claim (false): this holds for shorter strings too; a chunk that ends inside header or token is never finished.", "quantifier": "every byte string", "why_tests_cant": "arbitrary garbage input of any length", "anchors": ["src/coap/decoder.cpp: Decoder::process_iterate"]}
{"id": "C17", "title": "Event order is fixed for arbitrary input", "statement": "For every input, well formed or not, the events delivered before completion or assertion form a prefix of: header, token, option start, options*, options completed, at most one payload, completed; nothing is delivered twice. For any sequence of calls with any chunks the same holds except that payload events may repeat.", "quantifier": "every byte string", "why_tests_cant": "arbitrary garbage input", "anchors": ["src/coap/decoder/subject.hpp: decode_and_notify"]}
{"id": "C18", "title": "Token length above 8", "statement": "Token bytes are written inside the 8 byte token buffer iff the token length nibble is at most 8; a message with nibble 9..15 and enough bytes makes the decoder write past the buffer.", "quantifier": "every message", "why_tests_cant": "needs memory-safety oracle for all headers", "anchors": ["src/coap/decoder/simple.h: RawDecoder", "src/coap/decoder.hpp: token_process_iterate"]}
{"id": "C19", "title": "Truncated options are not presented as complete", "statement": "Full claim (false): a message whose last option is cut short is not reported as completed. What holds: a cut option value is reported with completed=false and exactly its available bytes, but the message is still reported completed; a cut inside an option header, after any bytes that read as complete options, is an assertion iff a nibble is reserved, and otherwise is reported as exactly one option without value bytes, whose number is that of the previous option plus the extension bytes present if they are complete, and the message is reported completed.", "quantifier": "every truncation point of every message", "why_tests_cant": "all cut points of all messages", "anchors": ["src/coap/option-decoder.cpp: process_iterate(chunk,holder,last_chunk)", "src/coap/decoder.cpp"]}
{"id": "C20", "title": "Chunked delivery of a message", "statement": "For any cut of a well-formed message into non-empty chunks, header, token, option numbers and completion are reported exactly as for one chunk, and each option value up to the end of the chunk it starts in; a cut that splits no value and leaves the payload in the last chunk is invisible. Full claim (false): option values and payload bytes in later chunks are delivered too; they never are, and each later chunk repeats the payload event with no bytes.", "quantifier": "every message and every cut into chunks", "why_tests_cant": "exponentially many cuts", "anchors": ["src/coap/decoder.cpp", "src/coap/decoder/subject.hpp"]}
{"id": "C21", "title": "process_experimental delivers the whole message", "statement": "Full claim (false): process_experimental on a complete message delivers all events including completed. What holds: it stops at the first iteration in which the cursor is at the end of the buffer, so for a non-empty buffer, whatever its bytes, the delivered events are a strict prefix of those of the loop until Done, and completed is never delivered.", "quantifier": "every message", "why_tests_cant": "needs reasoning about every message end", "anchors": ["src/coap/decoder.h: Decoder::process_experimental"]}
{"id": "C22", "title": "Encode then decode is the identity on messages", "statement": "A message written with StreambufEncoder (header, token, options with non-decreasing numbers all within the range of C08 - in particular with values under 13 bytes -, payload marker, payload) into a large enough buffer decodes to the same header, token, options and payload. An integer option carries the shortest big-endian form of its number.", "quantifier": "every message within the encoder's working range", "why_tests_cant": "product of encoder and decoder state spaces", "anchors": ["src/coap/encoder/streambuf.h", "src/coap/decoder.cpp", "src/coap/decoder/subject.hpp"]}
{"id": "C23", "title": "Bounded output buffers only truncate", "statement": "StreambufEncoder never writes more bytes than the buffer offers; what is written is a prefix of the unbounded output; the header-only option call and the string call with a non-empty string return true iff everything fitted, and so does the payload marker. Full claim (false): so do all option calls; the empty string and the array overload return true even when the option was cut.", "quantifier": "every capacity and every call sequence", "why_tests_cant": "all capacities times all call sequences", "anchors": ["src/coap/encoder/streambuf.h: option, payload, write"]}
{"id": "C24", "title": "NetBufEncoder handles consecutive options", "statement": "Full claim (false): every option call emits its option. What holds: any sequence of options with value of 1 to 12 bytes comes out as the RFC encoding, every call reporting success; a zero-length option comes out right but after it a further zero-length option emits nothing while reporting success, and an option with a value never returns; an empty value given to the value overloads (or the integer 0) fires an assertion. An integer other than 0 is written in its shortest big-endian form.", "quantifier": "every sequence of option calls", "why_tests_cant": "non-termination and silent loss on all sequences containing the pattern", "anchors": ["src/coap/encoder.hpp: NetBufEncoder::option_header", "src/coap/encoder.h: option_value"]}
{"id": "C25", "title": "Only confirmable messages are retransmitted", "statement": "The retry observer tracks a sent message iff its type is CON, so whatever the retry service hands out in any history is a confirmable message that an earlier operation reported as sent, to the same address. The queue holds ten; an eleventh confirmable message is a fault.", "quantifier": "every history of sends, acks and service calls", "why_tests_cant": "unbounded histories", "anchors": ["src/exp/retry.h: RetryObserver::on_notify, Retry::is_con"]}
{"id": "C26", "title": "Retransmission times follow exponential back-off", "statement": "The retransmissions of a tracked message wait at least I, 2I and 4I after sending resp. the previous retransmission, for one I in 2000..2999 ms, and there are at most three, provided the clock does not wrap. Full claim (false): this holds for every clock; with a 16-bit clock a message can be handed out at once.", "quantifier": "every history and clock readings", "why_tests_cant": "unbounded interleavings of several messages and clock values", "anchors": ["src/exp/retry.h: Retry::service_retry, Retry::enqueue, Metadata::delta"]}
{"id": "C27", "title": "RFC retransmission count", "statement": "Full claim (false): an unacknowledged message is retransmitted MAX_RETRANSMIT = 4 times. What holds: exactly three times when the service keeps being called.", "quantifier": "every history", "why_tests_cant": "requires all histories", "anchors": ["src/exp/retry.h: Retry::service_retry", "src/coap.h: COAP_MAX_RETRANSMIT"]}
{"id": "C28", "title": "An acknowledged message is never retransmitted", "statement": "After service_ack accepts an ACK with address, message id and token of a tracked message, that message is not handed out again and all other tracked messages are unaffected; an ACK that matches nothing, or a non-ACK, changes nothing; service_ack returns true exactly when an ACK answers a tracked message. Full claim (false): the peer never sees that message again; the observer also tracks retransmissions it sees going out, as messages of their own.", "quantifier": "every history", "why_tests_cant": "unbounded histories and interleavings", "anchors": ["src/exp/retry.h: Retry::ack_received, match, service_ack"]}
{"id": "C29", "title": "The retry queue drains", "statement": "If no ACK ever arrives and the service keeps being called at sufficiently late times, every tracked message is handed out exactly three times and then forgotten; with n tracked messages 3n due calls suffice.", "quantifier": "every queue content and every fair schedule", "why_tests_cant": "liveness over schedules", "anchors": ["src/exp/retry.h: Retry::service_retry"]}
{"id": "C30", "title": "Earliest due message is served first", "statement": "Each service call hands out at most one message, and only one whose due time is minimal among all tracked messages and not after the current time; no other tracked message is altered.", "quantifier": "every queue content", "why_tests_cant": "all queue contents", "anchors": ["src/exp/retry.h: Retry::front, service_retry"]}
{"id": "C31", "title": "CBOR unsigned integers encode as RFC 7049 except 24", "statement": "The CBOR encoder emits the RFC 7049 shortest head for every value below 2^64 and each major type, except for the value 24, which is emitted as a single byte that decoders take for an incomplete 8-bit head; sequences of NetBufEncoder calls emit the encodings one after the other. A head that does not fit is stored past the buffer; in layer1::Encoder that is every 64-bit head. The list forms store elements as raw bytes.", "quantifier": "every value", "why_tests_cant": "2^64 values; the single bad one sits on a boundary", "anchors": ["src/cbor/encoder.h: major_type_and_integer"]}
{"id": "C32", "title": "CBOR integers survive encode/decode", "statement": "Decoding the encoder's output for any value below 2^32 other than 24 and any major type other than negative integer, wherever it lies in the data, returns type and value and consumes exactly the bytes emitted; what is emitted for 24, under any major type, swallows the byte that follows, whatever it is, and reads it as the value. Every head with one, two or four argument bytes, the shortest or not, reads as the value of these bytes. A negative integer's head read as unsigned gives its value modulo 2^32, except that the ones down to -24 come out without their sign.", "quantifier": "every value", "why_tests_cant": "2^32 values", "anchors": ["src/cbor/encoder.h", "src/cbor/decoder.cpp: Decoder::process_iterate", "src/cbor/decoder.h: Decoder::integer"]}
{"id": "C33", "title": "CBOR negative integers", "statement": "Full claim (false): negative integers survive encode/decode. What holds: the NetBufEncoder encoding is right for every negative value but -25, and for a 32-bit argument values below -25 round-trip, while values -1..-24 are decoded as the non-negative argument; the plain encoder emits the encoding of the next lower number for every negative value but -24; for the least value of a type of 32 bits or more both overflow.", "quantifier": "every negative value", "why_tests_cant": "all negative values, two encoders", "anchors": ["src/cbor/encoder.h: integer", "src/cbor/decoder.h: Decoder::integer"]}
{"id": "C34", "title": "Block option values survive encode/decode", "statement": "For block number 1..2^28-1, any more flag and any size exponent 0..7, the encoded block option is the shortest RFC 7959 encoding and decoding it returns the same number, flag and block size; every non-empty value of at most four bytes is decoded as RFC 7959 has it. Full claim (false): this holds for number 0 and for the empty value; the encoder then writes before the buffer and the decoder reads outside it. An exponent above 7 can change the number.", "quantifier": "every block number, flag and exponent", "why_tests_cant": "16 million combinations", "anchors": ["src/coap/blockwise.h"]}
{"id": "C35", "title": "Observe notifications carry the registered token and increasing sequence numbers", "statement": "Over any history of registrations and notification rounds, each notification goes to a registered address with that registration's token; sequence numbers of one registration are 1,2,3,... and message ids of consecutive notifications increase by one modulo 65536.", "quantifier": "every history", "why_tests_cant": "unbounded histories", "anchors": ["src/coap/observable.h: do_register", "src/coap/observable.hpp: for_each"]}
{"id": "C36", "title": "Observe deregistration stops notifications", "statement": "Full claim (false): after a deregistration request no notification is sent to that client. What holds: deregistration has no effect on the registration list although the reply code is success. The option observer of a request ends interested if the last Observe option is 0 or 1, uninterested if it is larger or if there is none before a Uri-Path, undecided without either, and faults exactly if some Observe option is not one byte long or the request is not a GET.", "quantifier": "every history", "why_tests_cant": "all histories", "anchors": ["src/coap/observable.h: do_deregister, evaluate_observe_option"]}
{"id": "C37", "title": "URI path lookup", "statement": "Stateless lookup returns the id of the first table row with that segment and parent, and none iff no such row exists. If the stateful matcher finds every segment of a path, the rows were picked in increasing table order; with unique siblings and real ids it finds a path iff rows can be picked so; for tables in depth-first order this is exactly membership of the path. After a miss it never matches again. Full claim (false): it finds every path of every table, and one matcher can be used for several paths.", "quantifier": "every table and every path", "why_tests_cant": "all tables and paths", "anchors": ["src/exp/uripathmap.h: match, UriPathMatcher3::find", "src/exp/uripath-repeater.h: UriPathMatcherBase::find, UriPathMatcher2::find"]}
{"id": "C38", "title": "CoRE link paths", "statement": "When the table is in depth-first order with distinct ids and at most 10 levels deep the links emitted are those of the nodes that have metadata, in order, each exactly the chain of segments from the root to the node; a deeper table overflows the stack. Full claim (false): this holds for every table in which parents come before their children.", "quantifier": "every table in depth-first order", "why_tests_cant": "all trees", "anchors": ["src/exp/uripath-repeater.h: core_evaluator::parent_handler, evaluate"]}
{"id": "C39", "title": "URI prefix comparison", "statement": "The factory's starts_with is true iff the key is an ASCII prefix of the segment; the dispatcher's starts_with is true iff one of the two is an ASCII prefix of the other, so an empty segment matches every handler. The factory takes the first item whose key starts the segment; so an earlier shorter key takes the requests of a later longer one, and a key with a character from 128 on never matches.", "quantifier": "every pair of strings", "why_tests_cant": "all strings", "anchors": ["src/coap-uripath-dispatcher.h: starts_with", "src/mc/experimental-factory.h: starts_with, find"]}
{"id": "C40", "title": "Dispatcher delivers to one chosen handler", "statement": "Whatever the handlers do, the chosen handler is the last one that answered always; from then on every token, option and payload call goes to that one object, unchanged and in order, and to nobody else; before that every call is offered to a new object of each factory that has not answered never; a factory that answered never gets no later call. Full claim (false): the first handler to answer always is chosen, the chosen one is told completion, and values in parts are offered as parts.", "quantifier": "every list of handlers and every event sequence", "why_tests_cant": "arbitrary handler behaviours and histories", "anchors": ["src/coap-dispatcher.h", "src/coap-dispatcher.hpp: FactoryDispatcherHandler"]}
{"id": "C41", "title": "Minimal replies echo token and message id", "statement": "build_reply emits the request's message id, version, token length and token with the given code and type ACK, from the bytes of the request through decoder and context to the bytes of the reply, which reads back so. Full claim (false): a NON request is not answered with an ACK; it always is (NetBufEncoder::header_and_token answers it with NON). A buffer too small cuts the reply silently; a token length above 8 reads outside the context.", "quantifier": "every request context", "why_tests_cant": "all headers and tokens", "anchors": ["src/coap/encoder/factory.h: build_reply", "src/coap/context.h"]}
{"id": "C42", "title": "CBOR item sequences survive encode/decode", "statement": "Any non-empty flat sequence of well-formed CBOR items (integers, simple values, strings, and array/map heads followed by their content) with 32-bit arguments is read by the StreamDecoder as exactly those items, whatever the initial decoder contents and whatever byte lies after the data; in particular what a sequence of NetBufEncoder calls wrote reads back as the items asked for. Excluded: negative integers -1..-24. After a final string the decoder reads one byte past the data.", "quantifier": "every item sequence, every encoder call sequence, every byte after the data", "why_tests_cant": "unbounded sequences and nesting; out-of-bounds reads depend on memory contents", "anchors": ["src/cbor/decoder.cpp: StreamDecoder::process", "src/cbor/decoder.h: fast_forward, string_experimental", "src/cbor/encoder.h: NetBufEncoder"]}
{"id": "C43", "title": "CBOR decoder robustness", "statement": "A call of StreamDecoder::process returns on every input. Full claim (false): it stores within its buffer on every input. What holds: a call that starts at an item stores out of bounds if and only if the head byte has additional information 27..31 and at least four bytes follow it.", "quantifier": "every input and every decoder state reachable by processing", "why_tests_cant": "all byte strings; memory errors", "anchors": ["src/cbor/decoder.cpp: Decoder::process_iterate, StreamDecoder::process"]}
{"id": "C44", "title": "CBOR older decoder", "statement": "The callback decoder consumes exactly the bytes of a head and returns its value for arguments below 25 and from 256 to 2^32-1; every argument 25..255 reads as 24. get_int_experimental and get_string_experimental therefore return every 32-bit integer and every string whose argument is not in 25..255 and leave the rest of the input. A head with a reserved argument or the indefinite mark is consumed alone and asking for its value fires an assertion; a head with an eight-byte argument fires one while it is read.", "quantifier": "every value, every string, every continuation", "why_tests_cant": "2^32 values and unbounded strings", "anchors": ["src/cbor.h: Decoder, get_int_experimental, get_string_experimental", "src/cbor/cbor.cpp: Decoder::process_iterate"]}
{"id": "C45", "title": "NetBufEncoder continues in further chunks", "statement": "However the netbuf is cut into chunks (empty ones included), repeating a cut option header call writes the RFC header exactly once, and an option with a value is written once and whole by a caller that repeats the call when the header was cut and continues with the rest when the value was cut. Full claim (false): the results of the call tell which of the two happened; written() is 1 in situations of both kinds. A header that exactly fills the chunk is reported as not written. Also false: a value may be given in several calls (last_chunk false); every call reports success and every byte is written once, but the header carries the length of the first piece, so the output is never the option.", "quantifier": "every chunking, every option in the encoder's guard", "why_tests_cant": "all ways to cut the output into chunks", "anchors": ["src/coap/encoder.hpp: NetBufEncoder::option_header, option", "src/coap/encoder.h: option_value, written", "src/coap-encoder.h: OptionEncoder::resume, pause"]}
{"id": "C46", "title": "NetBufEncoder messages survive encode/decode", "statement": "Header, token, options with values of 1 to 12 bytes and payload written through NetBufEncoder are the RFC 7252 form of the message, and the decoder reports exactly that message. Full claim (false): this holds in every build. In a DEBUG build a payload call always fires an assertion, after any sequence of calls. With any room header() writes all of the header or nothing, token() and payload() write what fits, and the result tells whether that was all. In a DEBUG build header(), token() and the options are refused out of order, and in the one state in which a payload is accepted the marker is written before it.", "quantifier": "every message in the guard, every capacity that suffices, every call sequence", "why_tests_cant": "unbounded messages; an invariant over all call sequences", "anchors": ["src/coap/encoder.h: header, token, payload_header", "src/coap/encoder.hpp: option, payload", "src/coap-encoder.h: EncoderBase", "src/coap/decoder.cpp"]}
{"id": "C47", "title": "Legacy decoder subject delivers messages in pieces", "statement": "However a message with a non-empty payload is cut into non-empty chunks, DecoderSubjectBase::dispatch takes every chunk completely and its observer is told the header, the token, number and length of each option and each byte of every option value and of the payload, in order, once, and completion last; in one piece there is one call per value and one for the payload. dispatch returns on every input. Full claim (false): this holds for every message. Without a payload on_complete is never called, and a final option without value, a token without options, or a header alone is not reported.", "quantifier": "every message, every cutting into chunks, every previous memory contents", "why_tests_cant": "all ways to cut a message of any length", "anchors": ["src/coap/decoder/subject.h: DecoderSubjectBase::dispatch", "src/coap/decoder/subject.hpp: dispatch_iterate, dispatch_option, observer_on_option"]}
{"id": "C48", "title": "Legacy decoder subject and a second message", "statement": "Full claim (false): a DecoderSubjectBase can be given one message after the other. What holds: after a message with payload the next dispatch takes no byte and tells nothing, whatever it is given; the one after that reports a completion and then the message it is given.", "quantifier": "every message and every following chunk", "why_tests_cant": "depends on the state left by arbitrary messages", "anchors": ["src/coap/decoder/subject.h: DecoderSubjectBase::dispatch, reset", "src/coap/decoder.cpp: process_iterate"]}
{"id": "C49", "title": "URI path handlers route a request by its first segment", "statement": "In a dispatcher over URI path handlers (handler objects in separate memory) the first non-empty Uri-Path segment of a request decides: of the prefixes that agree with it the last wins, and its inner observer is told exactly the options after that segment and the payload, in order; with no agreeing prefix, without a path, or for a response nobody is told anything. Full claims (false): only segments that contain the prefix are routed; the same holds if the handlers are made at one address (then the request is lost unless the winner is the last factory).", "quantifier": "every table of prefixes, every inner observer that only starts quietly, every message", "why_tests_cant": "arbitrary tables, observers and option lists", "anchors": ["src/coap-uripath-dispatcher.h: UriPathDispatcherHandlerBase, UriPathDispatcherHandler", "src/coap-dispatcher.hpp: FactoryDispatcherHandler"]}
{"id": "C50", "title": "Aggregate observer picks the first matching key", "statement": "The aggregate URI path observer makes the observer of the first table key that starts the first segment any key starts, and tells it that segment, all later option values, the payload and completion; without such a segment nothing is made or told and its interest is never iff there was a segment. Full claim (false): an unmatched segment rejects the path for good (/x/v1 is served as /v1). The announcements of number and length, and so all empty options, are withheld.", "quantifier": "every table, every observer, every message", "why_tests_cant": "arbitrary tables, observers and option lists", "anchors": ["src/coap-uripath-dispatcher.h: AggregateUriPathObserver", "src/mc/experimental-factory.h: FactoryAggregator"]}
{"id": "C51", "title": "Nested path dispatchers route by two segments", "statement": "With dispatchers nested in URI path handlers two path segments choose an observer of the inner table, which is told exactly what comes after the second one; with no agreeing inner prefix nobody is told anything.", "quantifier": "every two-level table and every message", "why_tests_cant": "arbitrary tables, observers and option lists", "anchors": ["src/coap-uripath-dispatcher.h: uri_plus_factory_dispatcher", "src/coap-dispatcher.hpp: FactoryDispatcherHandler"]}
{"id": "C52", "title": "Options pulled byte by byte", "statement": "An option sequence with values of 1 to 256 bytes inside the guard of C08 and C09, taken out of OptionEncoder one byte at a time with generate(), is its RFC 7252 form, from whatever state of the encoder the sequence starts, and the last option number is remembered. Full claim (false): this holds for every value length. For an empty value generate() never returns, and a value of more than 256 bytes never ends because the position has eight bits.", "quantifier": "every option sequence in the guard, every start state", "why_tests_cant": "unbounded sequences and values; divergence for every number of steps", "anchors": ["src/coap-encoder.h: OptionEncoder::generate, next", "src/coap-encoder.cpp: OptionEncoder::generate_iterate, generator_helper"]}
{"id": "C53", "title": "Decoder over a stream buffer", "statement": "However a well formed message is cut into segments, empty ones included, decode_and_notify over a StreambufDecoder reports its header, token, option numbers in order, option values up to the end of the segment they begin in, the complete payload in non-empty pieces of which only the last is flagged, and completion last; it consumes every byte and can be used again. When the options end either the marker or all data has been consumed, so the search for a second marker is never taken. Any other bytes after the token follow the RFC reading, with an assertion for the reserved nibble. Full claim (false): this holds on every platform. With signed char a byte 0xFF in header or token is dropped and a cut header never ends; with unsigned char missing header and token bytes are made up as 0xFF and an empty datagram overruns the token buffer; where in_avail() is -1 at the end a final empty option is out of bounds.", "quantifier": "every message, every cutting into segments, every previous memory contents, every reading of the platform choices", "why_tests_cant": "all ways to cut a message of any length, on platforms the tests do not run on", "anchors": ["src/coap/decoder/streambuf.hpp: process_iterate_streambuf, option", "src/coap/decoder/subject-core.hpp: decode_and_notify", "src/coap/platform/lwip/context.h: do_notify"]}
{"id": "C54", "title": "A server from datagram to reply", "statement": "The boilerplate server (header, token and Uri-Path observers and one that replies, over decode_and_notify) answers every well formed message, in whatever segments it arrives as long as none ends inside a Uri-Path value, with exactly one datagram: an acknowledgement with the version, message id and token of the message and 2.05, content format 0 and the version text if the path is that node of the table, otherwise 4.04. Auto404Observer and VersionObserver together send 4.04 exactly for paths outside the table, the version for its node and nothing for other nodes; the echo server sends 2.03; of what does not fit the buffer of a server the front part is sent; _UriBuilderObserver leaves the path of the message as text whatever it held before, if that is at most 127 characters; a longer one does not fit its string and nothing checks. Full claim (false): only requests are answered, and cuts do not matter. A 4.04 or 2.03 sent by one server makes the next send the same again; a path text of more than 127 characters is a fault; with the buffer of 8 bytes of the echo server, unless it grows, a token of more than four bytes is cut, and with the 32 of the boilerplate server a version text; a cut Uri-Path value is matched by its first part.", "quantifier": "every well formed message, every cutting, every good resource table, every previous memory contents", "why_tests_cant": "unbounded messages, tables and cuts; an endless exchange of datagrams", "anchors": ["src/coap/decoder/observer/util.h: HeaderContextObserver, TokenContextObserver, UriParserObserver, Auto404Observer, _UriBuilderObserver", "src/coap/platform/esp-idf/observer.h: VersionObserver, build_version_response", "src/coap/platform/lwip/context.h: do_notify, reply", "test/rtos/esp32/boilerplate-subject/main/app.cpp: Observer, udp_coap_recv"]}
{"id": "C55", "title": "Option iterator of the netbuf decoder", "statement": "header() and token() of NetBufDecoder return the header and token of every datagram that holds them, whatever follows; fewer bytes, or a token longer than eight, end in an assertion or past the token buffer. The option_iterator loop over a well formed message in one chunk visits exactly this: of every three options the first with an empty value, the second not at all and the third as it is, except that a last option with a value and no payload after it is not visited if it is a first; the typed readers give the integer of the value shown (uint8 its first byte, which for values of two bytes or more is not the value modulo 256), and calls out of order are assertions; none of this depends on what is in memory, but a bare header leaves the decoder in the state Payload if the memory looks as if a payload marker had been seen; payload() then returns the payload, although the state is OptionsDone rather than Payload when the number of options is 2 modulo 3. Full claim (false): the loop visits every option with its value; that is so exactly for messages with no option or with a single empty one.", "quantifier": "every header, token, option list and payload, every previous memory contents", "why_tests_cant": "option lists of any length; the tests check only numbers of short lists", "anchors": ["src/coap/decoder/netbuf.h: DecoderWithContext, NetBufDecoder, option_iterator", "src/coap/decoder.cpp: process_iterate, option"]}
{"id": "C56", "title": "Example servers from datagram to datagram", "statement": "The ping server answers every confirmable or non-confirmable datagram with a complete header and token with 2.05, its message id and token and nothing else. The uri, observable and discoverable servers answer every well formed message with exactly the header, token, code and path text that follow from the options the iterator visits (C55): 2.03 iff the visited path is the one segment test; the code of the last visited Observe option and one session per visited registration; 4.04 or 2.05 by the node found. Full claims (false): GET /test gets 2.03; Observe 1 deregisters; /.well-known/core is answered with the links. A lone /test gets 4.04, Observe as first option always registers and as second is not seen, no request at all reaches the links because only root nodes are ever found, replies without a path end in a bare payload marker, an acknowledgement stops the server, and in DEBUG builds no datagram gets a reply with a payload.", "quantifier": "every datagram, every well formed message, every table, every previous memory contents", "why_tests_cant": "unbounded messages and tables; claims that no message at all reaches a branch", "anchors": ["test/template/simple-ping-responder.hpp", "test/template/simple-uri-responder.hpp", "test/template/observable-raw-responder.hpp: simple_observable_responder", "test/posix/discoverable/main.cpp"]}
{"id": "C57", "title": "Netbuf copy", "statement": "coap_netbuf_copy appends everything from the skipped place of the source on to the destination, in order, whatever the chunks on both sides, fills each destination chunk before it goes to the next and returns, if the skip lies in the first chunk and the rest fits. Full claims (false): it returns when the rest does not fit (it never does), and any skip is allowed (past the first chunk it reads out of bounds, or never returns if there is no room).", "quantifier": "every source, skip and destination", "why_tests_cant": "arbitrary chunk boundaries on both sides; divergence for every number of steps", "anchors": ["src/exp/misc.hpp: coap_netbuf_copy", "src/platform/generic/malloc_netbuf.h: NetBufDynamicExperimental"]}
{"id": "C58", "title": "Managed buffer with boundaries", "statement": "Up to ten segments of at most 1024 bytes in all, written to a ManagedBuffer each with a boundary, can be read back from the start: the first read up to a boundary code gives everything before the first boundary of that code, and after one next() the same from the second segment on. Without such a boundary ahead the chunk goes to the end of the whole buffer, and read() gives the current chunk and moves on. Full claim (false): after k calls of next() reading goes on with segment k. From the second next() on the position is the sum of the end positions so far, so what is read lacks as many bytes at its beginning as the first segment was long, or is not in the buffer at all; an eleventh boundary is written past the array even after reset(true), and a next() after the last segment uses a descriptor nobody wrote.", "quantifier": "every list of segments and boundary codes, every previous memory contents", "why_tests_cant": "the unit tests read two segments only; all segment lengths and counts", "anchors": ["src/mc/experimental.h: ManagedBuffer", "src/mc/experimental.cpp: ManagedBuffer"]}
{"id": "C59", "title": "The echo server acknowledges with id and token", "statement": "The ESP32 echo server answers every datagram made of a header, a token of one to eight bytes and anything else, in any chunks, with exactly one acknowledgement 2.03 carrying its version, message id and token, provided that, where char is signed, no byte of header and token is 0xFF; the same for every well formed message without token, provided that, where char is signed, no byte of the header is 0xFF and, where in_avail() is -1 at the end, the message does not end in an empty option. Full claims (false): only requests are answered (every message is, its own reply too, so two such servers answer each other for ever); the id and token of the reply come from the datagram (where char is signed a datagram of less than four bytes, or whose header ends in 0xFF, is acknowledged with what the memory held); a token length above 8 is refused (memory past the token is used).", "quantifier": "every datagram and chunking, char signed or not, every previous memory contents", "why_tests_cant": "the server runs on hardware only; every rest of the datagram and every chunking", "anchors": ["test/rtos/esp32/echo/main/udp-coap.cpp: udp_coap_recv", "src/coap/decoder/streambuf.hpp: StreambufDecoder::process_iterate_streambuf"]}
{"id": "C60", "title": "Option registry known to the library", "statement": "For every option number: a value format given by OptionDecoder::get_format, and format and length limits given by option_traits_type, are those of RFC 7252, 7641 and 7959, the two tables agree where both know an option, and a name given by get_description is the registered one, except for 23 and 27. Full claims (false): every registered option is known (get_format lacks exactly 6, 14, 20, 28, 35, 39, 60; the traits exactly 3, 5, 6, 7, 8, 14, 15, 28), and the enumerators are the registered numbers (Block1 and Block2 are swapped).", "quantifier": "every option number", "why_tests_cant": "the unit tests look at one option; absence claims range over all numbers", "anchors": ["src/coap/option.h: Option::Numbers", "src/coap/decoder/option.h: OptionDecoder::get_format", "src/exp/option-trait.h: option_traits_type", "src/coap.cpp: get_description"]}
{"id": "C61", "title": "Diagnostic log of a message", "statement": "For every well formed message received in one piece DiagnosticMessageObserver prints exactly one header line, one token line, one line for each option by its format, the payload and the completion; numbers are the unique numerals of their values, and tokens, opaque values and payloads can be read back from the hex digits. One exception: of a bare header it prints a payload of no bytes if the decoder memory is left as by a message with payload. Full claims (false): every message can be printed (one with a text option of 128 bytes or more, 255 being allowed, writes past a buffer, and only those), and different messages print differently (a text ends at its first zero byte; type and code are not printed).", "quantifier": "every message, word size of long at least 8 bits", "why_tests_cant": "texts of exactly the buffer length; every number and byte value", "anchors": ["src/exp/diagnostic-decoder-observer.h: DiagnosticMessageObserver", "src/coap/decoder/option.h: OptionDecoder::get_format"]}
{"id": "C62", "title": "The example servers on the network", "statement": "For every server and any number of turns without errors and empty datagrams, the posix loop sends exactly what the server has to say to the datagrams (their first 4096 bytes), one datagram a turn in order, and faults iff more are waiting than fit the queue; LwIP likewise whatever happens, losing only what cannot be sent. The ping server answers each datagram in the next turn, to its sender. The observable server sends a reply to each request and, in every turn more than a second after the last round, one notification for every registration so far with consecutive message ids and the client's own count. Full claims (false): the posix servers keep serving (an empty datagram or an error ends the process), and ping answers whatever it gets (an acknowledgement stops it).", "quantifier": "every server, number of turns, datagrams, addresses, times and queue size", "why_tests_cant": "any interleaving of requests, clients and clock", "anchors": ["src/platform/posix/sockets-datapump.cpp: nonblocking_datapump_loop", "src/platform/lwip/lwip-datapump.cpp: nonblocking_datapump_loop", "test/posix/datapump/main.cpp: main", "test/posix/observable-raw/main.cpp: main", "test/template/observable-raw-responder.hpp: evaluate_emit_observe"]}
{"id": "C63", "title": "The CBOR example server", "statement": "On every well-formed message, whatever options it has, the CBOR server reads exactly the payload (a bare header counts as an empty payload if the memory of the decoder is left as by a message with payload; what lies behind the datagram is then printed) and, unless that is undefined, answers 2.03 with the token; its loop ends on every payload; of a well-formed item sequence it prints every item in order, with numbers right iff they fit fifteen bits (and negative ones iff below -24). Full claim (false): it stays inside the payload. For every payload of well-formed items it reads the byte behind, and prints its major type if the last item is no plain value; a text string announcing more than there is is printed from the memory behind the datagram, lengths count modulo 65536, and any item with an 8-byte, reserved or indefinite argument overruns the decoder's buffer.", "quantifier": "every message, payload, item sequence and memory behind it", "why_tests_cant": "the space of payloads is infinite and the faults depend on what lies behind the buffer", "anchors": ["test/template/simple-cbor-responder.hpp: simple_cbor_responder", "src/cbor/decoder.h: Decoder::integer, fast_forward", "src/coap/decoder/netbuf.h: has_payload_experimental"]}
{"id": "C64", "title": "Aggregates of observers and factories, and the queue served with observers", "statement": "An AggregateMessageObserver gives each header, token and option call to every observer of its pack, in order, and fails only if the object stack is too small; FactoryAggregator lets exactly the factories that can create do so, last first, each asked once; process_messageobserver takes one item from the queue per call. Full claim (false): the observers see messages as they would alone and every queued message is delivered. Observers are rebuilt for every call and remember nothing, never hear of payload or completion, and the memory of each is never given back, so enough options exhaust it; of queued messages with payload exactly every second one reaches the observer, only the first chunk of a message is ever looked at, and nothing of the sender is passed on.", "quantifier": "every pack of observers with any state, any sequence of calls, any factories, any queue of messages", "why_tests_cant": "the interplay of construction per call, memory and decoder state over unboundedly many calls and messages", "anchors": ["src/exp/message-observer.h: AggregateMessageObserver", "src/exp/factory.h: FactoryAggregator::create", "src/platform/generic/datapump-messageobserver.hpp: process_messageobserver, process_messageobserver2"]}
{"id": "C65", "title": "A turn of the DTLS server ends in one of nine ways, and the daemon around it", "statement": "Whatever the TLS library answers, a turn of Dtls::loop ends with exactly the *ret and result of one of nine cases, never leaves its buffer, asks to stop iff no client could be taken or the reply could not be written, and in the regular case makes exactly the calls of one accept, handshake, read, write and close; setup stops at the first failing call and returns its code; the daemon opens and closes the socket in turn and sets up again exactly after bad turns. One handshake attempt of DtlsServer makes exactly the calls and gives exactly the result of its cases. Full claim (false): every record read is echoed whole, a client cannot stall the server, a client's failed handshake leaves the others alone, DtlsServer::handshake() returns when a client is connected. A partial write or a record of 8192 bytes or more loses its rest, a silent client holds the server for good, any failed handshake or read closes the socket and sets up all again, handshake() returns only after a failure, and DtlsServer::read answers the same for data and for errors and never says how much was read.", "quantifier": "every sequence of answers of the library calls (any number of requests to try again), every record, every sequence of turns and setups", "why_tests_cant": "the cases depend on the answers of an external library over unboundedly many repeated calls, and most of them need a faulty network", "anchors": ["src/platform/mbedtls/dtls-datapump.cpp: Dtls::setup, Dtls::loop", "src/platform/mbedtls/dtls.hpp: DtlsServer::load_certs, handshake, read", "test/rtos/esp32/dtls-datapump/main/mbedtls+freertos-datapump.cpp: coap_daemon"]}
{"id": "C66", "title": "The DTLS delay timer tells which delays have passed, also over a wrap of the counter", "statement": "mbedtls_timing_get_delay returns -1 iff the timer was cancelled, and otherwise, while less than 2^32 ms have gone by since it was set, 0, 1 or 2 according to which of the two delays are over, also when the millisecond counter wraps in between, and never goes back. Full claim (false): it meets the contract of the library at all times. A delay that is over to the millisecond is reported as not over, and after 2^32 ms the timer starts again.", "quantifier": "all tick rates, all times of setting and asking (unbounded tick counts), all delays", "why_tests_cant": "wrap-around of a 32 bit millisecond counter happens after 49.7 days", "anchors": ["src/platform/mbedtls/esp8266-timing.cpp: get_current_time, mbedtls_timing_set_delay, mbedtls_timing_get_delay"]}
{"id": "C67", "title": "The reliable sockets helper sends each datagram once and never again", "statement": "With FEATURE_MCCOAP_RELIABLE, whatever is enqueued, received or acknowledged and however much time passes, SocketsDatapumpHelper sends each enqueued datagram exactly once, in the order of the calls, and its retry queue stays empty; a turn of its loop goes through if the first datagram received has a readable header and token and ends in an assertion for every other one. Full claim (false): an unacknowledged confirmable message is sent again, and an acknowledgement counts only from the endpoint it was sent to. enqueue computes is_con and throws it away, and addresses are compared without the port.", "quantifier": "every sequence of enqueue, loop and pop calls with any network events and times, every datagram", "why_tests_cant": "the missing retransmission shows only if an acknowledgement is lost, and malformed datagrams come only from outside", "anchors": ["src/platform/posix/sockets-datapump.h: SocketsDatapumpHelper::loop, enqueue, pop; address_traits<sockaddr_in>::equals_fromto", "src/exp/retry.h: is_con, service_ack, service_retry", "test/posix/request-con/main.cpp"]}
{"id": "C68", "title": "Retry cannot send a netbuf again: by then it is gone", "statement": "In every sequence of making, destroying, sending, tracking and acknowledging netbufs that touches no freed memory, no netbuf goes over the wire twice, and each is sent with the message it was made with to an address named for it, with either build of the data pump; as long as nothing faults the queue Retry keeps is, step for step, the queue of C25 to C30 (same items, due times, counts and retransmissions handed to the pump); as long as nothing was sent or destroyed an acknowledgement removes exactly the message it answers. Full claim (false): Retry's retransmissions reach the wire and acknowledgements of messages sent are matched. After the first transmission the netbuf is destroyed while Retry keeps a pointer to it: the retransmission and the reading of an acknowledgement touch freed memory.", "quantifier": "every sequence of operations in any order, both builds of the pump, every queue size, clock width, message and address", "why_tests_cant": "use of freed memory does not show in the tests (their author notes a crash seen one time), and the orders of operations are unbounded", "anchors": ["src/exp/retry.h: Item, enqueue, match, ack_received, service_ack, service_retry", "src/platform/generic/malloc_netbuf.h: NetBufDynamicExperimental, NetBufDynamicExperimental", "src/platform/posix/sockets-datapump.cpp: nonblocking_datapump_loop"]}
{"id": "C69", "title": "The context filled while decoding holds header and token of the message", "statement": "However a message with options or payload is cut into chunks and whatever the context held before, ContextDispatcherHandler under the decoder subject leaves a context with the header and token of the message, whose token() gives that token; a new context, for a message of version 1 to 3, says it is interested until header and token (if any) have been seen, and never after. Full claim (false): this holds for every message and for a context used again. A message that ends behind header or token leaves the context without it (a ping is not recorded at all), a used context is finished with the next header and shows the token of the message before, and a token in two parts ends up with the second part over the first.", "quantifier": "every well-formed message, every cutting into non-empty chunks, every earlier content of the context, every prefix of the calls", "why_tests_cant": "the cuttings and the earlier contents are unbounded; the unit test uses one buffer and a new context", "anchors": ["src/coap-dispatcher.h: ContextDispatcherHandler::interested", "src/coap-dispatcher.hpp: ContextDispatcherHandler::on_header, on_token", "src/coap/context.h: TokenContext<true>, HeaderContext", "src/coap/decoder/subject.hpp: DecoderSubjectBase::dispatch", "test/unit-tests/coap-datapump-test.cpp"]}
{"id": "C70", "title": "The ESP8266 observable server sends nothing", "statement": "Whatever arrives and however long it runs, the daemon of the ESP8266 observable example sends nothing and registers nobody; what arrives stays in its queue, and the first datagram more than the queue holds is a fault. Given registrations, it would send a round in exactly the turns that find 1001 times the tick period gone since the last one, one message to every registration, over wraps of the tick counter too. Full claim (false): it serves requests and notifies once a second. The loop never looks at the incoming queue, and divides ticks by the milliseconds of a tick instead of multiplying: with a tick of P milliseconds the first round is due after P * P seconds (100 seconds at 100 Hz).", "quantifier": "every sequence of network events and readings of the counter, every tick period and queue size", "why_tests_cant": "the silence holds for all inputs of any length, and the rate differs from the intended one only where the tick is not one millisecond; the example is not run by any test", "anchors": ["test/pio/esp8266/observable-raw/src/lwip+freertos-datapump.cpp: coap_daemon", "src/platform/lwip/lwip-datapump.cpp: nonblocking_datapump_loop", "src/coap/observable.hpp: for_each"]}
{"id": "C71", "title": "Observers behind a dispatcher have no context", "statement": "Whatever tables of the library's observers a dispatcher is made with (context handlers, static observers behind a path, dispatchers behind a path, nested to any depth) and whatever it is told, neither the application's context nor the dispatcher's own copy changes, and each time a static observer is told something its context pointer leads to an object already destroyed. In a table of context handlers and static observers: a context handler's answer depends on the present call alone: with a token it answers Currently every time, without one Never after the header (of version 1 to 3). It does not disturb routing: of a request whose first Uri-Path segment is not empty the last observer whose path agrees is told the rest of the message and nobody else is told anything, also from the bytes of a datagram on. Full claim (false): a context handler in a table fills in the context that later observers work with. The dispatcher hands each factory a copy that is a variable of the loop body.", "quantifier": "every table, every message, every sequence of calls, every initial context", "why_tests_cant": "a dangling pointer to a dead stack frame usually still reads something plausible; the unit test of the dispatcher has a context handler in its table but its observers look at the payload only", "anchors": ["src/coap-dispatcher.hpp: FactoryDispatcherHandler::on_header", "src/coap-dispatcher.hpp: FactoryDispatcherHandler::on_option", "src/coap-dispatcher.h: FactoryDispatcherHandler", "src/coap-dispatcher.h: ContextDispatcherHandler", "src/coap-uripath-dispatcher.h: uri_plus_observer_dispatcher", "src/coap/context.h: ContextContainer"]}
{"id": "C72", "title": "CBOR older decoder over whole texts; map heads and simple values", "statement": "DecodeToObserver::decode walks over the heads of every text and ends on its last head or within the one that is cut off; at a 64-bit head followed by a byte it asserts. Full claim (false): it tells its observer of every integer and simple value. What holds: it never calls the observer, whatever the text. get_map_experimental returns the number of pairs of every map head below 25 and from 256 to 2^32-1 (25..255 read as 24) and leaves *result unset; any other head gives 0 and InvalidType. The older decoder's is_simple_type_bool, simple_value_bool and is_simple_value_null tell true, false and null from every other item; the newer decoder's is_true, is_false and is_null do so only if the type is asked first, an integer 21 passing for true.", "quantifier": "every text, every head, every state of the buffer", "why_tests_cant": "the observer class has no unit test; the decoder being done is visible only at the one moment the loop does not look", "anchors": ["src/cbor/cbor.cpp: CBOR::DecodeToObserver::decode", "src/cbor/cbor.cpp: Decoder::process_iterate", "src/cbor.h: get_map_experimental, is_simple_type_bool, simple_value_bool, is_simple_value_null", "src/cbor/decoder.h: SimpleData, SimpleDataHelper"]}
{"id": "C73", "title": "The CoRE listing of the observer, and nested path tables", "statement": "core_observer writes, for every table that comes from a forest of up to ten levels, one line per node with metadata in table order: its link of C38, the title and a line end; without line ends inside the names the lines can be cut apart again. Full claim (false): the text is a CoRE link list; no comma is ever written between links. content_type and size write the decimal numeral of the value; a title can be read back exactly if it holds no quote, none is escaped. The nested tables: match returns the first entry of an array or none; the two lookups after one another give the id the flat table of C37 gives if no parent has two relations, and only the first of two is looked at. A count beyond the array reads past its end exactly if the key is absent.", "quantifier": "every forest, metadata, room of the stream, table, key and count", "why_tests_cant": "the unit test prints the listing and compares nothing; it passes the size in bytes as the count and looks up a key that is there", "anchors": ["src/exp/uripath-repeater.h: core_observer, node_core_event, title_tacker", "src/exp/uripath-repeater.h: match(UriPathMap2*), match(triad*)", "test/unit-tests/experimental2-test.cpp: factory test"]}
{"id": "C74", "title": "The retry queue that keeps netbufs in its items", "statement": "With the two inline features, for any history of making, sending, tracking, servicing, acknowledging and destroying: no memory has two owners, an owner's memory is not freed, so nothing is freed twice; every transmission carries the message its netbuf was made with; memory that has lost its owner is never freed. Full claims (false): an acknowledged message gives its memory back (it is lost for ever); it does not matter whether the transmission is reported (unreported, the queue reads freed memory); with the observer told of everything sent a message is given back, or given up if unanswered (never: each transmission makes a new item, and 2 W + S <= 30 + P until the queue of ten is full). With the observer told of first transmissions and con_sent_experimental of the others: no freed memory is touched, each message is sent at most four times (once if not confirmable) with the same content to the same address, without acknowledgements all memory is given back, and the queue behaves as that of C25-C30.", "quantifier": "every history of operations, clock width, pump size, address equality and order of the vector", "why_tests_cant": "what is freed too early or never is not seen by assertions; the unit tests read freed memory in this build and still pass", "anchors": ["src/exp/retry.h: Item, enqueue, match, con_sent_experimental, service_ack, service_retry, RetryObserver (FEATURE_MCCOAP_RETRY_INLINE)", "src/platform/generic/malloc_netbuf.h: move constructor, destructor", "test/unit-tests/retry-test.cpp"]}
{"id": "C75", "title": "A request, its retransmissions and their replies over an unreliable network", "statement": "A client that sends with the retry queue and ping servers, with a network between them that loses, doubles and reorders datagrams. In every run: the client goes through a history of C25-C30; only messages sent, in wire form, are on their way to a server, and only replies (2.05, same token and message id, acknowledgement for a confirmable message) to messages that server handled are on their way back; every datagram is accounted for, so without losses and doublings, once nothing is on its way, every sending and every retransmission was handled once and answered once; nothing faults but the sending of an eleventh waiting message; servers handle at most four datagrams per message plus one for each doubled; a reply that arrives takes from the queue a message with its token and message id sent to where it comes from, which is not transmitted again, or nothing if there is none; if no two messages can be taken for one another, the message taken has been handled by its server, and once everything on its way is delivered - always possible, in a bounded number of deliveries - nothing waits of which a copy or reply was on its way. Full claims (false): each message is handled once; a reply to any of the four transmissions is taken; a message taken has been handled, whatever ids are used.", "quantifier": "every sequence of sending, servicing, delivering, losing and doubling, every number of messages, server address, clock width, memory content and possible queue position", "why_tests_cant": "interleavings of loss, duplication and retransmission are unbounded; no test connects the queue with a server", "anchors": ["src/exp/retry.h: enqueue, service_ack, service_retry, RetryObserver", "test/template/simple-ping-responder.hpp", "test/posix/datapump/main.cpp", "src/platform/posix/sockets-datapump.cpp: nonblocking_datapump_loop"]}
{"id": "C76", "title": "Messages written with the encoder's operators into a network buffer, finalized and sent", "statement": "With StreambufEncoder over a network buffer (which may hold anything before and grows in chunks of any size): whatever is called, nothing faults, and after finalize the datagram sent is what the same calls write into a plain buffer of the total size, with the same results; hence it depends on neither the old contents of the memory nor the chunks. A message written with the operators, values and payload byte by byte, goes out in its RFC 7252 form (option lengths within the range of C08, in particular below 13) if there is room for it. Sent to the boilerplate server, the one reply is decoded by any decoder between messages as an acknowledgement with the request's version, id and token: 2.05 with Content-Format and text if the path is the node's, 4.04 and nothing else otherwise. Full claim (false): a message that does not fit is not sent - the operators drop the results, and a payload that does not fit is sent cut. Without the finalize for network buffers the rest of the memory goes out as well and is decoded as payload.", "quantifier": "every message, sequence of calls, memory content, chunking of its growth, table, text, and decoder state between messages", "why_tests_cant": "memory contents and growth are unbounded; the one test of the operators uses a zeroed buffer that is big enough and no network buffer", "anchors": ["src/coap/encoder/streambuf.h: operator<<, option, token, payload, finalize", "src/coap/platform/lwip/context.h: sendto, reply", "test/unit-tests/coap-encoder-test.cpp: stream operators"]}
{"id": "C77", "title": "A notification passed on from observer to observer (ObservableMetaSession)", "statement": "When a notification has been transmitted and the next session's token is as long as the one in it, the same message goes to that session's address with that session's token; so it does to every session of a round whose tokens all have the length of the first, and every receiver decodes the notification with its own token. Full claims (false): this holds for every token - the number of bytes skipped in the old message is computed from the new token length, so with a shorter token the end of the old one stands before the options, with a longer one the options lose their first bytes or the message is read past its end (in any round each token is just written over what followed the header before, so the extra bytes of a longer token are told to the next session); two notifications for one endpoint have different message ids - all have the first one's; without FEATURE_EMBR_DATAPUMP_INLINE the session gets the rewritten netbuf - it gets the old one, with the first session's token. A new netbuf with less room than the message and the copying does not end.", "quantifier": "every message, token, number of sessions, netbuf size, build and memory of the decoder", "why_tests_cant": "the class is never instantiated, in tests or elsewhere", "anchors": ["src/coap/observable.h: ObservableMetaSession::on_message_transmitted", "src/exp/misc.hpp: coap_netbuf_copy"]}
{"id": "C78", "title": "Observers and their notifications over an unreliable network", "statement": "Whatever of what was sent to an address arrives, in whatever order and how often, is decoded as the notifications that were sent, and a client that goes by RFC 7641 3.4 ends up with the one that has the largest number for its token, with the options and payload the application put into it. A token registered once from an address gets one notification per round that follows, numbered 1, 2, 3 and so on in the order they are sent; so once the notification of the last round has arrived the client holds it, whatever came before or after. Full claim (false): the notification of a later round is always the newer one for the client - a client that registers again under its token gets a second series that starts at 1 again, and stays with the older state.", "quantifier": "every history of registrations and rounds, every selection, order and repetition of what was sent, every memory of the decoder", "why_tests_cant": "unbounded histories and every order of delivery; the tests run one round without a network", "anchors": ["src/coap/observable.h: ObservableRegistrar", "src/coap/observable.hpp: for_each", "src/coap/decoder.h: Decoder::process_iterate"]}
{"id": "C79", "title": "What is told of a datagram does not depend on what the decoder held before", "statement": "Two decoder objects between messages may hold any memory (header bytes, token bytes, half-read options, option numbers, positions). Any sequence of decode_and_notify calls, with any chunks, cursors and flags and over any number of messages, then shows the same events, cursors and flags and faults at the same call, provided the objects agree on one fact: whether the option decoder's storage reads as Payload. For the loop over one datagram of any bytes, complete or not, not even that fact matters unless the datagram has exactly four bytes. So one object used for any number of datagrams that have header and token, well formed or not, tells of each what a new object tells of it alone, and stops exactly at a datagram that by itself faults. The decoder of a stream shows the same under the same proviso, for any calls and any stream. Full claim (false): it never matters - for a header without token the left-over fact always shows, as an empty payload event.", "quantifier": "every pair of memories, every sequence of calls, every list of datagrams", "why_tests_cant": "a relation between two runs over unbounded memories and inputs; the tests start from new objects", "anchors": ["src/coap/decoder.cpp: Decoder::process_iterate", "src/coap/option-decoder.cpp: OptionDecoder::process_iterate", "src/coap/decoder/subject.hpp: decode_and_notify"]}
{"id": "C80", "title": "Names of states and types tell them apart", "statement": "The description of a decoder state, where there is one, belongs to no other state, and only the initial state has none; what is put out for a state of the option decoder (its description, or its number) is never empty and tells the state; for the type of every received header a name is put out, and tells the type.", "quantifier": "every state, every header", "why_tests_cant": "the tests print none of them", "anchors": ["src/coap.cpp: get_description", "src/coap.cpp: operator<<", "src/coap/header.h: to_string"]}
{"id": "C81", "title": "The Uri-Path repeater passes on the path", "statement": "Full claim (false): UriPathRepeater passes on the Uri-Path segments of a message. What holds: of every message it passes on the values of all options, whatever their number, in order, as path segments, so that is the path exactly if the message has no other option. However the message is cut into chunks it passes on as many segments as there are options, but a value that lies in two chunks is passed on cut short as if it were a whole segment.", "quantifier": "every message, every cut into chunks", "why_tests_cant": "every message; the tests only create the object", "anchors": ["src/exp/uripath-repeater.h: UriPathRepeater"]}
{"id": "C82", "title": "Datagrams and messages correspond one to one", "statement": "Full claim (false): a datagram that is reported like a message is the encoding of that message. What holds: what follows the token is either refused by a strict reading of RFC 7252 section 3.1 (numbers and lengths of 16 bits, no reserved nibble, nothing cut short) or is the encoding of exactly one list of options and payload; different messages have different encodings; the decoder reports a strictly readable datagram as the strict reading says, so two such datagrams with the same report are the same. False beyond that: deltas and lengths count modulo 65536, so options written with any deltas and lengths that agree modulo 65536 are reported alike; hence for every list of options, in any order, there is a datagram reported as just that list, every message with an option whose number is at most 268 above the one before has a second datagram with the same report, and a stray half of an option header behind a message without payload is reported as one more, empty option.", "quantifier": "every datagram, every message", "why_tests_cant": "all byte strings; the tests compare a few", "anchors": ["src/coap/decoder.h: Decoder::process_iterate", "src/coap/decoder/option.h: OptionDecoder", "src/coap/encoder.h: NetBufEncoder"]}
{"id": "C83", "title": "What the servers make of any datagram at all", "statement": "Full claim (false): only well formed messages are acted on. What holds, for every byte string in any segments and a send buffer of any size (which cuts what does not fit): there is exactly one reading of it, which either stops the server (token length above 8, reserved option nibble; where the end of the data is announced as a negative count also anything cut short) or gives a header, a token and a path, and then the boilerplate server sends exactly one datagram (the version if the path is that node, otherwise 4.04), Auto404Observer with VersionObserver send what C54 says for that path, and the echo server sends 2.03, each with the id and token that were read. With unsigned char this covers every byte string; with signed char those whose header and token are there without 0xFF (C53 gives the others). False: options written with numbers or lengths beyond 16 bits are answered like the properly written ones; a request that lost its end inside a Uri-Path value is answered as a request for the part that arrived, which may be another resource; a datagram that ends inside its header or token is answered 4.04 with 0xFF for the missing bytes of id and token.", "quantifier": "every byte string, every cutting into segments, every good resource table, every previous memory contents", "why_tests_cant": "all byte strings; the tests send a few well formed messages", "anchors": ["src/coap/decoder/streambuf.hpp: process_iterate_streambuf", "src/coap/decoder/observer/util.h: UriParserObserver", "test/rtos/esp32/boilerplate-subject/main/app.cpp: Observer, udp_coap_recv"]}
{"id": "C84", "title": "The netbuf example servers on any datagram", "statement": "Full claim (false): a datagram that is not a well formed request changes nothing, and a request adds at most one observer. What holds, for every byte string that has a header and its token: the ping server that skips the options stops exactly if a reserved nibble stands where an option header is read (also in a header cut short) and otherwise replies 2.05 with id and token; the uri, observe and discovery servers stop at such a nibble, and whenever they do not stop they reply with the header, id and token of the request, with a path put together only from pieces of the datagram and the code that goes with it; the sessions there were stay, those added are all the sender's with the token of the request and within the capacity. False: an Observe option whose value is cut off registers the sender once for each three missing bytes, up to sixteen sessions for one datagram of a header, a token and two bytes, beyond which the server stops; with the ten places of the example two bytes of option fill the table with one sender and the next registration of anybody stops the server; a Uri-Path cut off is read as a row of empty segments; the links of the discovery server, which no well formed request reaches (C56), are sent to a request whose option numbers run over 65535.", "quantifier": "every byte string after header and token, every previous memory contents, every table, capacity and list of sessions; every length and every part of a cut value", "why_tests_cant": "all byte strings; the tests use a few well formed messages", "anchors": ["src/coap/decoder/netbuf.h: option_iterator, header_and_token", "test/template/simple-ping-responder.hpp: simple_ping_responder", "test/template/simple-uri-responder.hpp: simple_uri_responder", "test/template/observable-raw-responder.hpp", "test/posix/discoverable/main.cpp"]}
{"id": "C85", "title": "The loops of the example servers, whatever arrives", "statement": "Any traffic: any datagrams, errors and failed sends in any order, any memory contents. The ping program on posix takes exactly one course through it: it answers each datagram that has a header, its token and a confirmable or non-confirmable type (and, where it skips the options, no reserved nibble where an option header is read) in the turn after, exits at an error, at a failed send and at an empty datagram, and faults at the first datagram it cannot answer. Whenever the uri and observe programs run, on posix and lwip, all they send are replies, each to a datagram that came before from the same address, with its id and token, and (observe) notifications with a token that a datagram from that address has brought; the table of observers never holds more than ten, all with such addresses and tokens; on posix the uri program sends one reply for each datagram, in order. Full claim (false): the programs go on whatever arrives. One datagram that cannot be answered (an acknowledgement, three bytes) ends the service for all.", "quantifier": "every sequence of events of any length, every byte string as datagram, every memory contents in every turn", "why_tests_cant": "all sequences of all byte strings; there are no tests of the loops", "anchors": ["src/platform/posix/sockets-datapump.cpp: nonblocking_datapump_loop", "src/platform/lwip/lwip-datapump.cpp", "test/posix/datapump/main.cpp: main", "test/posix/datapump-raw-uri/main.cpp: main", "test/posix/observable-raw/main.cpp: main", "test/template/simple-ping-responder.hpp: simple_ping_responder"]}
{"id": "C86", "title": "The CBOR server on any datagram", "statement": "What the CBOR server prints of a payload is, for any bytes and any memory behind them, exactly what a specification reads off the bytes item by item (major type, argument of one, two or four bytes, string, array or map stepped into), and does not depend on what was in the decoder object before; valid items at the front are printed first whatever follows them. On every datagram with header, token and something after them it stops at a reserved nibble in the options; otherwise it prints the bytes after the payload marker if the options end with one, and nothing else, and replies 2.03 with the token unless the printing stops it. With 65535 bytes behind the payload the printing stops only at a head with an eight byte argument, a reserved one or an indefinite length that has four more bytes of payload after it. Full claim (false): no payload stops the server. Such a head with four bytes after it always does, wherever the memory ends.", "quantifier": "every byte string as payload, as memory behind it and as bytes after the token; every state of the decoder objects; any buffer size", "why_tests_cant": "all byte strings of all lengths; there is no test of this server", "anchors": ["test/template/simple-cbor-responder.hpp: simple_cbor_responder", "src/cbor/decoder.cpp: StreamDecoder::process_iterate", "src/cbor/decoder.h: StreamDecoder", "src/coap/decoder/netbuf.h: option_iterator", "test/posix/cbor/main.cpp: main"]}
{"id": "C87", "title": "The CBOR program under any traffic", "statement": "Whatever arrives in whatever order, and whatever the 4096 bytes of the fresh netbuf and the decoder objects held before, the CBOR program takes exactly one course: a datagram whose type can be answered, whose options can be read and whose payload (read in the memory it is in) can be printed is answered 2.03 with its token in the turn after; an empty datagram, an error and a failed send end the program in order; the first datagram of any other kind stops it. Full claim (false): the program goes on through any valid messages. A single well-formed message whose payload has an eight byte number after any valid items ends it, after any traffic.", "quantifier": "all lists of turns, datagrams, memory contents and queue sizes", "why_tests_cant": "sequences of turns of any length over all byte strings; there is no test of this program", "anchors": ["test/posix/cbor/main.cpp: main", "test/template/simple-cbor-responder.hpp: simple_cbor_responder", "src/platform/posix/sockets-datapump.cpp: nonblocking_datapump_loop", "src/platform/generic/malloc_netbuf.h: NetBufDynamicExperimental"]}
{"id": "C88", "title": "What the example servers see of any option bytes, exactly", "statement": "For every datagram whatsoever and whatever memory held before, the loop over the options of the example servers sees exactly what a direct reading of the bytes after the token says: each complete option with something after it is passed twice (with its value, then empty), a value that is cut is counted down to zero, a cut header gives three places and one for each missing byte and then counts down the length it gets with zeros for the missing bytes, and one place in three, from the second on, is looked at; reading the value where the count is 15 modulo 16, and any reserved nibble, stops the server. The uri, observe and discoverable servers send the one reply (and add the sessions) this determines, and stop if and only if there is none. Of well-formed messages this is what C55 says. Full claim (false): a readable request never stops the server. One byte after the token, the start of a Uri-Path header with a two-byte length, stops the uri server.", "quantifier": "all byte strings, decoder memory, buffer sizes from 12 (13) bytes, session tables and resource tables", "why_tests_cant": "the quantifier is over all byte strings up to any length; the tests send a few well-formed messages", "anchors": ["src/coap/decoder/netbuf.h: NetBufDecoder::option_iterator", "src/coap/decoder/option.cpp: OptionDecoder::process_iterate", "test/template/simple-uri-responder.hpp: simple_uri_responder", "test/template/observable-raw-responder.hpp", "test/posix/discoverable/main.cpp: main"]}
{"id": "C89", "title": "The uri and the discoverable program under any traffic, exactly", "statement": "Whatever arrives in whatever order, and whatever fresh memory holds, the uri program and the discoverable program each take exactly one course: a datagram is answered in the turn after with the one reply that what is seen of its options (C88) determines, an empty datagram, an error and a failed send end the program in order, and the first datagram without a reply stops it. The discoverable program answers 2.05 with the text of the two links if the path seen is /.well-known/core, 2.05 with an empty payload for its five other nodes and 4.04 for every other path, for tokens of any length. Full claim (false): the uri program goes on whatever requests arrive. After any traffic a request with one option byte, 0xBE, ends it, whatever its header and token.", "quantifier": "all lists of turns, datagrams, memory contents and queue sizes", "why_tests_cant": "sequences of turns of any length over all byte strings; there is no test of these programs", "anchors": ["test/posix/datapump-raw-uri/main.cpp: main", "test/posix/discoverable/main.cpp: main", "test/posix/discoverable/main.cpp: extra_link_attribute_handler", "test/template/simple-uri-responder.hpp: simple_uri_responder", "src/platform/posix/sockets-datapump.cpp: nonblocking_datapump_loop"]}
{"id": "C90", "title": "The ping and the uri daemon on lwIP under any traffic, exactly", "statement": "Whatever arrives in whatever order, whatever fresh memory holds and whatever room from 12 bytes a netbuf has, the two daemons each take exactly one course: a datagram is answered in the turn after with the one reply its bytes determine, a reply whose send fails is lost, errors of recv change nothing, the daemon never exits, and the first datagram without a reply stops it. Full claim (false): the daemon goes on whatever arrives. An empty datagram, which ends the posix programs in order, stops both daemons after any traffic.", "quantifier": "all lists of turns, datagrams of up to 65535 bytes, memory contents, netbuf and queue sizes", "why_tests_cant": "sequences of turns of any length over all byte strings; there is no test of these programs", "anchors": ["test/pio/esp8266/datapump/src/lwip+freertos-datapump.cpp: coap_daemon", "test/pio/esp8266/datapump-raw-uri/src/lwip+freertos-datapump.cpp: coap_daemon", "src/platform/lwip/lwip-datapump.cpp: nonblocking_datapump_loop", "test/template/simple-uri-responder.hpp: simple_uri_responder", "test/template/simple-ping-responder.hpp: simple_ping_responder"]}
{"id": "C91", "title": "Dispatchers put directly into a dispatcher", "statement": "If the factories of a dispatcher make dispatchers over groups of URI path handlers (handler objects in separate memory), then of every message the first path segment that agrees with one of all the prefixes decides, of the prefixes that agree with it the last wins, and its observer is told exactly what comes after that segment; without such a segment nobody is told anything. A request whose first segment agrees does the same as with all handlers in one table. Full claim (false): grouping does not change which messages a handler gets. In groups a response is routed too, and unmatched segments are skipped: /x/v1 goes to v1.", "quantifier": "all groups, messages and observers", "why_tests_cant": "any number of groups, prefixes, options and observers; the tests have one table with two entries", "anchors": ["src/coap-dispatcher.hpp: FactoryDispatcherHandler", "src/coap-dispatcher.h: FactoryDispatcherHandler::interested", "src/coap-uripath-dispatcher.h: UriPathDispatcherHandlerBase"]}
{"id": "C92", "title": "The observe program under any traffic, exactly", "statement": "Whatever arrives, at whatever times and in whatever memory, the observe program takes exactly one course: each turn one waiting datagram goes out; a datagram that comes in gets the reply its bytes determine and may add clients, up to ten; when more than a second has passed since the last round every client gets its next notification, with the next message id and its own count. It exits at an error, a failed send and an empty datagram, and stops at the first datagram without a reply, when more datagrams would wait than the queue holds, and after 2147483647 notifications. Full claim (false): it goes on as long as its clients send proper requests. Eleven registrations, also if one client repeats its own, end it, and so does a round with more clients than places in the queue.", "quantifier": "all lists of turns, datagrams, times, memory contents and queue sizes", "why_tests_cant": "sequences of turns of any length over all byte strings with state; there is no test of this program", "anchors": ["test/posix/observable-raw/main.cpp: main", "test/template/observable-raw-responder.hpp: simple_observable_responder, evaluate_emit_observe", "src/coap/observable.h: ObservableRegistrar", "src/coap/observable.hpp: for_each", "src/platform/posix/sockets-datapump.cpp: nonblocking_datapump_loop"]}
{"id": "C93", "title": "What the retry queue hands out, told from the history alone", "statement": "A message waits if it was sent confirmable, was handed out less than three times and was not acknowledged since; it is due two to three seconds (as drawn) times two to the number of its retransmissions after the last of them. If no acknowledgement can be meant for two messages and the clock does not wrap, each service call hands out nothing if no waiting message is due, and otherwise exactly one waiting message that is due with none due earlier; nothing else is ever handed out. At most ten wait, and one more confirmable message is a fault exactly if ten do. Full claim (false): an acknowledged message is not handed out, also if it was sent twice.", "quantifier": "all histories of sends, received messages and service calls, all choices of the heap", "why_tests_cant": "histories of any length; what is handed out depends on all of the past", "anchors": ["src/exp/retry.h: Retry::enqueue, service_retry, service_ack, ack_received, Metadata::delta"]}
{"id": "C94", "title": "A context that points to the token instead of copying it", "statement": "Full claim (false): a context without inline token gives the token of the message while it is handled, and a reply built from it carries that token. What holds, for any bytes after the token: the observers see the same events as without it; before the token event a new context has no token (reading it goes through NULL); at the token event and when the options start the context gives the token; from then on it does so if nothing follows the token, and otherwise its first three bytes read as zero, because the option decoder shares the memory. So a reply built at the end of the options, at the payload or at completion of a message with options or payload carries another token of the same length whenever one of the first three bytes of the token is not zero.", "quantifier": "all headers, tokens, following bytes and former contents of decoder and memory", "why_tests_cant": "which bytes are overwritten depends on the message and on the state of the option decoder; a test with an inline token cannot show it", "anchors": ["src/coap/context.h: TokenContext<false>, TokenAndHeaderContext<false, false>", "src/coap/decoder.h: DecoderBase", "src/coap/decoder/observer/util.h: TokenContextObserver", "src/coap/encoder/factory.h: build_reply"]}
{"id": "C95", "title": "What a client transmits again over a bad network", "statement": "A client sends requests with retransmission to ping servers over a network that loses, doubles, delays and reorders. If no two messages sent can be taken for one another, each service call puts on the network exactly the message that is due first among the confirmable ones that were transmitted again less than three times and to which no reply was read, with the bytes and the address it was first sent with, and nothing if none of them is due. An eleventh confirmable message is a fault exactly if ten are unanswered. If the network loses nothing, then once nothing is on its way a reply to every message was read, nothing waits and no service call transmits any more. Full claim (false): every message is answered.", "quantifier": "all exchanges: all messages, addresses, times, losses, doublings, orders, server memory and heap layouts, any comparison of addresses that is an equivalence", "why_tests_cant": "the claim joins the client queue, the decoder of the reply, the servers and every behaviour of a network; tests run one of them at a time", "anchors": ["src/exp/retry.h: enqueue, service_ack, service_retry, RetryObserver", "test/template/simple-ping-responder.hpp", "src/platform/posix/sockets-datapump.cpp"]}
{"id": "C96", "title": "What the retry queue with inline netbufs retransmits, and when", "statement": "With the two inline features, the observer told of first transmissions and con_sent_experimental of the others: each service_retry puts into the pump exactly the message that is due first among the confirmable ones that were put in again less than three times and were not acknowledged since they were first sent, for the address it was first sent to, and nothing if none of them is due; the wait is two to three seconds, doubled each time. The queue goes through a history of C25-C30, event by event.", "quantifier": "every history of operations made in that way, clock width, pump size, address equality that is reflexive and order of the vector; clocks away from the wraparound", "why_tests_cant": "the schedule depends on the whole history of sends, service calls and acknowledgements and on the order of the queue, and its netbufs travel between pump and queue; the tests look at one message", "anchors": ["src/exp/retry.h: Item, enqueue, match, con_sent_experimental, service_ack, service_retry, RetryObserver (FEATURE_MCCOAP_RETRY_INLINE, FEATURE_EMBR_DATAPUMP_INLINE)"]}
{"id": "C97", "title": "The option encoder reads only an option that is there", "statement": "An option whose storage comes and goes between two bytes (pause, resume, another place) comes out of OptionEncoder as the RFC 7252 form of C08, C09 with values of up to 256 bytes, as long as the encoder points at an equal option whenever a byte is asked for; a byte asked for at any other time is a fault; reset() makes the next option the first one; an encoder constructed with an option begins with it, and next() begins the option pointed at once more; fast_forward() ends an option in its value and is a fault elsewhere. NetBufEncoder and StreambufEncoder, which point it at local variables, never read one that is gone, in any sequence of calls; option_header leaves a null pointer when the option has to be continued. Full claims (false): the encoder notices being resumed with another option; no encoder keeps a pointer to an option that is gone: option_generate_byte() of a StreambufEncoder after any option reads a local of a call that has returned.", "quantifier": "every program of turns, pauses, resumptions and moves; every sequence of calls of the two encoders, with every place of the locals", "why_tests_cant": "lifetimes of locals and the points at which an option is interrupted are not visible to a test, and reading a dead local often still works", "anchors": ["src/coap-encoder.h: OptionEncoder::next, resume, pause, reset", "src/coap-encoder.cpp: OptionEncoder::generate_iterate", "src/coap/encoder.hpp: NetBufEncoder::option_header", "src/coap/encoder/streambuf.h: StreambufEncoder::option, option_generate_byte"]}
{"id": "C98", "title": "Lookup in key/value tables and function factories", "statement": "A Map from C strings to ints gives the value of the first entry with exactly the name asked for and -1 without one, reading nothing outside the strings; the same for numbers as keys. FnFactory::create with a C string calls the function of the first entry with that name, with a chunk the function of the first entry whose (7-bit) name begins the bytes, and gives the not-found value without one or when that entry has a null function, whatever follows. Full claims (false): -1 tells that there is no entry; a name asked for as C string and as chunk gives the same, which does hold for a 7-bit name of the table when no name begins another. With a count given by the caller only that many items are looked at; a count beyond the array reads past its end unless an item is found, and so does a chunk whose length is beyond its memory if the first name goes on there.", "quantifier": "every table, every name and chunk, every count", "why_tests_cant": "all tables and names; shadowing by an earlier prefix or by a null function shows only for special tables", "anchors": ["src/mc/experimental-factory.h: find, find2, Map::find, KeyTraits, starts_with, FnFactory::create"]}
{"id": "C99", "title": "Block numbers of every integer type", "statement": "option_block_encode called with a block number of any integer type (8, 16, 32, 64 bits, signed or not) gives the shortest RFC 7959 value for every number from 1 to 2^27-1 in the type, so for every allowed number but 0, and decoding gives it back; for types narrower than int that is every number but 0. Full claims (false): a signed number is encoded or cut like an unsigned one: exactly the numbers up to 0 and from 2^27 (2^59 in 64 bits) are faults; a number can be read into a smaller type: into 64 bits it is right for up to eight bytes, into 16 bits the last 12 bits come through, into 8 bits it is right exactly for values of one byte.", "quantifier": "every integer type, number, flag, exponent and option value", "why_tests_cant": "promotion and overflow depend on the type the template is used with, and the wrong readings occur only from 16 or 4096 blocks on", "anchors": ["src/coap/blockwise.h: option_block_encode, option_block_decode_num"]}
