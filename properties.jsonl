{"id": "C01", "title": "Primitive values survive encode/decode", "statement": "For every scalar or variable-width primitive type T that has both Encode and Decode (bool, u8..u64, i8..i64, f32, f64, char, timestamp, Uuid, Bytes, ByteStr, Str, Symbol): decoding the bytes that encode() wrote, followed by any further bytes, succeeds, returns a value equal to the original and leaves exactly the further bytes.", "quantifier": "every value of every primitive type (lengths below 4 GiB, timestamps representable as documented in C30) and every trailing byte string, in debug and release builds", "why_tests_cant": "the value spaces are 2^64-sized or unbounded; tests sample a few literals and never the trailing bytes", "anchors": ["src/codec/encode.rs: Encode impls", "src/codec/decode.rs: DecodeFormatted impls"]}
{"id": "C02", "title": "encoded_size is exactly the number of bytes written", "statement": "For every value of every encodable type other than messages carrying a header section (see C25) encoded_size() equals the number of bytes encode() appends to the buffer. Frame length fields, list/map/array size fields and buffer reservations are all computed from it.", "quantifier": "every value of every type: primitives, Variant trees, maps, arrays, Multiple, all performatives, sections, SASL bodies, frames", "why_tests_cant": "sizes depend on nesting and on several thresholds (0, 255/256, -128/127, 254/255 compound content); only a proof covers every combination", "anchors": ["src/codec/encode.rs: encoded_size", "src/protocol/definitions.rs: encoded_size_*_inner", "src/protocol/mod.rs: encoded_size"]}
{"id": "C03", "title": "Encoders emit AMQP 1.0 wire bytes and the shortest form", "statement": "encode() of each primitive produces exactly the byte layout AMQP 1.0 section 1.6 prescribes (constructor byte, big-endian payload) and picks the shortest encoding defined by the standard for that value.", "quantifier": "every primitive value", "why_tests_cant": "interoperability with other AMQP implementations cannot be seen by a self round-trip test: a wrong constructor byte used on both sides passes it", "anchors": ["src/codec/encode.rs", "src/codec/mod.rs: FORMATCODE_*"]}
{"id": "C04", "title": "Decoders accept every standard encoding of a value", "statement": "If a byte string is any encoding of a generic value allowed by AMQP 1.0 (short or long form, 8- or 32-bit sizes, list0, nested lists, maps and described values), Variant::decode on it followed by any bytes returns exactly that value and leaves exactly those bytes.", "quantifier": "every value tree, every permitted choice of encoding at every node, every trailing byte string", "why_tests_cant": "a peer may use any of exponentially many encodings of one value; the crate's own encoder exercises one of them", "anchors": ["src/codec/decode.rs: Variant::decode_with_format", "src/codec/decode.rs: List, HashMap, Descriptor"]}
{"id": "C05", "title": "Generic values survive encode/decode", "statement": "Encoding a generic Variant and decoding the bytes gives a Variant equal to the original (maps in any order, NaNs equal), and leaves any following bytes. Exceptions that are stated exactly: values with a list inside (C06); a StaticSymbol comes back as a Symbol, which is not equal to it; a timestamp keeps whole milliseconds only (C30); a described value whose descriptor is the number 0 cannot be read (its code 0x44 is refused).", "quantifier": "every list-free Variant tree of any depth and width, with descriptors other than ulong 0 and keys that stay distinct", "why_tests_cant": "unbounded recursive data with hash maps in unknown order", "anchors": ["src/codec/encode.rs: Variant", "src/codec/decode.rs: Variant", "src/types/variant.rs"]}
{"id": "C06", "title": "Lists survive encode/decode", "statement": "Encoding a List (or a Variant containing one) and decoding the result gives the list back. Expected by every user of Variant::List and of amqp-sequence bodies; the code violates it for every list, because lists are written with the array constructor. Nothing else is wrong: with the list constructor in the first byte the same bytes are a list the standard allows, with the elements in order.", "quantifier": "every list; the failure is for all lists, not one", "why_tests_cant": "the suite contains no list encoding test; the theorem shows no list at all survives", "anchors": ["src/codec/encode.rs: impl Encode for List", "src/codec/decode.rs: impl DecodeFormatted for List / Variant"]}
{"id": "C07", "title": "Decoding consumes a prefix", "statement": "Whenever any decoder succeeds, the input is the consumed bytes followed by the returned remainder, at least one byte is consumed, and the consumed bytes alone determine the value: followed by anything else they decode to the same value. Decoders never re-order, invent, skip or peek beyond what they consume.", "quantifier": "every input and every decodable type including composites, frames and sections", "why_tests_cant": "needs all inputs, including hostile ones with inconsistent sizes", "anchors": ["src/codec/decode.rs", "src/protocol/definitions.rs"]}
{"id": "C08", "title": "Trailing bytes do not influence a decoded value", "statement": "If a decoder succeeds on an input, then on the same input followed by any bytes it returns the same value and the old remainder followed by those bytes (all self-delimiting types; Transfer and the empty frame are the documented exceptions).", "quantifier": "every input, every extension", "why_tests_cant": "a relation between pairs of unbounded inputs", "anchors": ["src/codec/decode.rs", "src/protocol/definitions.rs"]}
{"id": "C09", "title": "No proper prefix of an encoding decodes", "statement": "A truncated encoding is never accepted: if a decoder accepts an input and consumes all of it, it accepts no proper prefix of that input.", "quantifier": "every accepted input and every truncation point", "why_tests_cant": "quantifies over all cut points of all encodings; a wrong acceptance would silently corrupt a stream", "anchors": ["src/codec/decode.rs"]}
{"id": "C10", "title": "Decoded values are well-typed", "statement": "Every value returned by a decoder fits its type: integers in range, chars are Unicode scalar values, strings and symbols are valid UTF-8, UUIDs have 16 bytes, maps have pairwise different keys.", "quantifier": "every input byte string on which decoding succeeds", "why_tests_cant": "hostile inputs are unbounded; an out-of-range char or invalid UTF-8 would be undefined behaviour in Rust", "anchors": ["src/codec/decode.rs"]}
{"id": "C11", "title": "Strings are accepted exactly when they are UTF-8", "statement": "A string or symbol payload decodes if and only if it is the UTF-8 encoding of a sequence of Unicode scalar values (no surrogates, no overlong forms, at most U+10FFFF); otherwise the decoder reports a UTF-8 error.", "quantifier": "every byte string of every length", "why_tests_cant": "the set of byte strings is infinite; overlong/surrogate corner cases are easy to miss", "anchors": ["src/codec/decode.rs: ByteStr, Str, Symbol", "core::str::from_utf8"]}
{"id": "C12", "title": "Malformed input yields an error, never a panic", "statement": "Decoding arbitrary bytes returns Ok or Err but does not panic. True of the primitive decoders other than timestamps; violated by maps, arrays, compound headers, timestamps, maps keyed by maps, and therefore by whole frames.", "quantifier": "every byte string; witnesses for the violations, a proof for the types where it holds", "why_tests_cant": "absence of panics is a universal statement over inputs; the refutations are inputs no test contains", "anchors": ["src/codec/decode.rs: HashMap, Vec, decode_compound8, decode_compound32, datetime_from_millis", "src/types/variant.rs: Hash for VariantMap"]}
{"id": "C13", "title": "Map decoding honours the declared size and keeps the last duplicate", "statement": "When a map decodes, exactly the declared number of bytes is consumed whatever the entries do, entries beyond the declared count are skipped, and a key that occurs twice keeps its last value; keys are pairwise different.", "quantifier": "every input accepted as a map", "why_tests_cant": "requires reasoning over all count/size combinations and duplicate patterns", "anchors": ["src/codec/decode.rs: HashMap::decode_with_format"]}
{"id": "C14", "title": "List elements stay inside the declared list size", "statement": "Elements of a decoded list come from the bytes the list header declares. Violated by the generic list and array decoders, which ignore the size; respected by every performative decoder.", "quantifier": "every input", "why_tests_cant": "needs adversarial size/count combinations", "anchors": ["src/codec/decode.rs: List, Vec", "src/protocol/definitions.rs: decode_*_inner"]}
{"id": "C15", "title": "Arrays survive encode/decode", "statement": "Vec<T> for every array-encodable T decodes from its own encoding to the same vector, and the header's size field equals the number of bytes after it. Violated at exactly one content length: 254 bytes.", "quantifier": "every element type and every vector with total size below 4 GiB", "why_tests_cant": "the defect sits at one content length between the 8-bit and 32-bit forms; random tests do not hit it", "anchors": ["src/codec/encode.rs: impl Encode for Vec<T>", "src/codec/decode.rs: Vec<T>"]}
{"id": "C16", "title": "Multiple values: one item bare, otherwise an array", "statement": "A Multiple<T> field with one element is written as that element without an array; with zero or several elements as an array; decoding either form yields the same Multiple.", "quantifier": "every Multiple of symbols of any length", "why_tests_cant": "interaction of three encodings over unbounded lists", "anchors": ["src/codec/encode.rs: Multiple", "src/codec/decode.rs: Multiple"]}
{"id": "C17", "title": "Performatives survive encode/decode", "statement": "Each of the nine AMQP performatives (open, begin, attach, flow, transfer, disposition, detach, end, close), each SASL body, each delivery state/outcome, source, target, error, header and properties decodes from its own encoding to an equal value, with any trailing bytes left over (transfer: the trailing bytes are its body).", "quantifier": "every value of each of the 24 composite types, all combinations of present/absent optional fields", "why_tests_cant": "2^14 presence patterns per type times unbounded field values", "anchors": ["src/protocol/definitions.rs"]}
{"id": "C18", "title": "Composite wire layout follows the AMQP standard", "statement": "Each composite value is written as 0x00, the smallulong descriptor code of the standard, then a list8/list32 whose declared size and count are exact and whose elements are the fields in the order of the standard, absent fields as null.", "quantifier": "every value of each composite type", "why_tests_cant": "a swapped pair of equally typed fields on both sides round-trips; only a comparison with the standard's tables detects it", "anchors": ["src/protocol/definitions.rs: encode_*_inner", "codegen/specification.json"]}
{"id": "C19", "title": "Missing trailing fields get the standard's defaults", "statement": "A composite whose list carries fewer elements than the type has fields decodes with every missing or null field set to None or to the default of the standard. If a mandatory field is missing, decoding fails with RequiredFieldOmitted naming that field; if it is null, decoding fails with InvalidFormatCode(0x40).", "quantifier": "every composite type, every number of elements present, every pattern of nulls", "why_tests_cant": "combinatorial over fields, and only the sender's encoder (which always writes all fields) is tested", "anchors": ["src/protocol/definitions.rs: decode_*_inner"]}
{"id": "C20", "title": "Extra list elements and unknown tail bytes of a composite are skipped", "statement": "If the list of a composite holds more bytes than its known fields use, the rest of the declared size is skipped and decoding resumes exactly after the list.", "quantifier": "every composite, every extra tail", "why_tests_cant": "forward compatibility concerns inputs produced by future peers", "anchors": ["src/protocol/definitions.rs"]}
{"id": "C21", "title": "Numeric and symbolic descriptors are interchangeable; others are refused", "statement": "A composite decodes identically whether its descriptor is the ulong code (short or long form) or the symbolic name (sym8 or sym32); any other descriptor is refused with an invalid-descriptor error carrying it.", "quantifier": "every descriptor value and every composite type", "why_tests_cant": "all 2^64 codes and all symbols", "anchors": ["src/protocol/definitions.rs: DecodeFormatted impls", "src/codec/decode.rs: Descriptor"]}
{"id": "C22", "title": "Dispatch enums select exactly the described type", "statement": "Frame, DeliveryState, Outcome, SaslFrameBody and Section decode to the alternative named by the descriptor and to nothing else; an empty AMQP frame body is the empty (heartbeat) frame; every alternative round-trips.", "quantifier": "every alternative and every descriptor", "why_tests_cant": "a misrouted code for equally shaped types (end/close, accepted/released) is invisible to shape tests", "anchors": ["src/protocol/definitions.rs: Frame, DeliveryState, Outcome, SaslFrameBody, Section"]}
{"id": "C23", "title": "Enumerations are bijective with their wire values", "statement": "Role, settle modes, SASL code, durability, expiry policy and the four error-condition families encode to the value of the standard, decode back, and reject every other wire value with an unknown-option error.", "quantifier": "every enumerator and every non-enumerator wire value", "why_tests_cant": "rejection must hold for all remaining values or symbols", "anchors": ["src/protocol/definitions.rs: Role, SenderSettleMode, ReceiverSettleMode, SaslCode, TerminusDurability, TerminusExpiryPolicy, AmqpError, ConnectionError, SessionError, LinkError"]}
{"id": "C24", "title": "Custom error conditions and distribution modes keep their symbol", "statement": "An error condition or distribution mode that is not predefined keeps its symbol across encode/decode; a custom value spelling a predefined name comes back as the predefined alternative and encodes to the same bytes.", "quantifier": "every symbol", "why_tests_cant": "all symbols; order of the four lookups matters", "anchors": ["src/protocol/mod.rs: ErrorCondition, DistributionMode, MessageId"]}
{"id": "C25", "title": "Message size prediction", "statement": "encoded_size() of a message equals the bytes encode() writes. True without a header section; with a header the prediction is 3 bytes too large at every nesting level, so the enclosing frame's length field and nested-message length prefixes are wrong.", "quantifier": "every message, any nesting depth of messages within messages", "why_tests_cant": "recursive structure; the defect is invisible to tests that only re-decode a message with nothing behind it", "anchors": ["src/message/inmessage.rs: encoded_size", "src/message/outmessage.rs: encoded_size", "src/message/body.rs"]}
{"id": "C26", "title": "Messages survive encode/decode", "statement": "A message encoded and decoded again has the same header, delivery/message annotations, properties, application properties, footer, data sections and value; an empty body comes back as one empty data section.", "quantifier": "every message without sequences and nested messages", "why_tests_cant": "unbounded combination of optional sections", "anchors": ["src/message/inmessage.rs", "src/message/outmessage.rs", "src/message/body.rs"]}
{"id": "C27", "title": "Nested messages come back as their encodings", "statement": "A message whose body holds messages is received as a message whose data sections are, in order, the encodings of those messages, each of which decodes to the original.", "quantifier": "every list of nested header-free messages", "why_tests_cant": "recursive structures", "anchors": ["src/message/body.rs", "src/protocol/mod.rs: TransferBody"]}
{"id": "C28", "title": "Changing a message changes its predicted size", "statement": "After any builder call the size prediction reflects the new content even if it was computed before. Violated by set_value, which keeps the cached prediction.", "quantifier": "every message and every sequence of builder calls", "why_tests_cant": "depends on histories: query, modify, query", "anchors": ["src/message/inmessage.rs: set_value, set_body, set_header, set_properties, set_app_property", "src/message/outmessage.rs"]}
{"id": "C29", "title": "Asking for the size does not change a message", "statement": "encoded_size() is an observer: its result is stable, and it does not alter what the message encodes to. (It does alter == comparison with an equal message that was not asked.)", "quantifier": "every message", "why_tests_cant": "interior mutability is invisible in signatures", "anchors": ["src/message/inmessage.rs: size Cell", "src/message/outmessage.rs"]}
{"id": "C30", "title": "Timestamps keep their millisecond instant", "statement": "Encoding a timestamp and decoding it keeps the instant truncated to milliseconds. True from 1970 on and before 1969-12-31T23:59:59Z; violated in the last second before 1970, where the decoded instant is mirrored to after the epoch.", "quantifier": "every representable timestamp, every 64-bit millisecond count", "why_tests_cant": "failing values form a tiny interval", "anchors": ["src/codec/decode.rs: datetime_from_millis", "src/codec/encode.rs: DateTime"]}
{"id": "C31", "title": "Frame header checks", "statement": "A frame is accepted only if its type byte matches the expected type and its data offset is at least 2; any extended header the data offset announces is skipped without affecting the result.", "quantifier": "every data offset, every extended header content, every channel", "why_tests_cant": "the encoder never produces extended headers, so only foreign peers exercise them", "anchors": ["src/codec/decode.rs: decode_frame_header", "src/framing.rs"]}
{"id": "C32", "title": "Frames survive encode/decode and carry their own length", "statement": "An AMQP or SASL frame starts with its exact total length, offset 2, its type and channel; decoding what follows the length gives back the channel and performative.", "quantifier": "every channel and every encodable performative", "why_tests_cant": "length correctness rests on C02 for all performatives", "anchors": ["src/codec/encode.rs: AmqpFrame, SaslFrame", "src/codec/decode.rs: AmqpFrame, SaslFrame"]}
{"id": "C33", "title": "A sequence of frames is received intact under any chunking", "statement": "Writing any sequence of frames through the stream encoder and feeding the bytes to the stream decoder in chunks split anywhere yields exactly those frames in order, no error, nothing left over.", "quantifier": "every frame sequence and every way to cut the byte stream", "why_tests_cant": "exponentially many chunkings of unbounded streams", "anchors": ["src/io.rs: AmqpCodec"]}
{"id": "C34", "title": "Stream decoding does not depend on chunk boundaries", "statement": "The frames and the first error delivered by the stream decoder depend only on the concatenation of the received bytes, not on how reads split them, for valid and invalid streams alike.", "quantifier": "every byte stream, every two chunkings", "why_tests_cant": "pairs of chunkings of arbitrary streams", "anchors": ["src/io.rs: AmqpCodec::decode"]}
{"id": "C35", "title": "The stream decoder takes exactly one frame's bytes per frame", "statement": "When the stream decoder yields a frame, it has removed exactly the number of bytes given by the frame's length field; when it yields nothing it has lost no byte that a later call needs.", "quantifier": "every buffer content and state", "why_tests_cant": "invariant over all reachable states", "anchors": ["src/io.rs"]}
{"id": "C36", "title": "Recovery after a bad frame", "statement": "After reporting an error for one frame the stream decoder continues with the next frame. Violated: the decoder stays in mid-frame state and interprets the next frame's bytes with the old length.", "quantifier": "every well-framed bad frame followed by good frames", "why_tests_cant": "history-dependent behaviour after errors", "anchors": ["src/io.rs: AmqpCodec::decode"]}
{"id": "C37", "title": "Undersized frame lengths are rejected", "statement": "A frame length below the 8-byte minimum yields an error. Violated for lengths 0..3: a panic in debug builds, and in release builds the decoder waits forever and yields nothing whatever arrives later.", "quantifier": "every continuation of the stream", "why_tests_cant": "the release behaviour is a liveness statement over all future input", "anchors": ["src/io.rs"]}
{"id": "C38", "title": "Protocol header negotiation", "statement": "The 8-byte protocol header of each protocol id round-trips; a decoder waits (consuming nothing) below 8 bytes, then consumes exactly 8, and accepts exactly the three headers of version 1.0.0, with the error telling whether prefix, version or id was wrong.", "quantifier": "every 8-byte header and every prefix/suffix", "why_tests_cant": "2^64 headers", "anchors": ["src/io.rs: ProtocolIdCodec", "src/protocol/mod.rs: ProtocolId"]}
{"id": "C39", "title": "Encoding never overruns the reserved buffer", "statement": "The stream encoder reserves enough room: encoding a frame through it never panics for lack of capacity, whatever the destination's capacity and content, and only appends to the destination.", "quantifier": "every frame with exact size prediction, every initial buffer", "why_tests_cant": "depends on capacity/length combinations and on C02; the buffer library panics on overflow", "anchors": ["src/io.rs: AmqpCodec::encode"]}
{"id": "C40", "title": "Different values have different encodings", "statement": "Two values whose encodings coincide are equal: encoding is injective up to the crate's equality.", "quantifier": "every pair of encodable (round-tripping) values", "why_tests_cant": "pairs of unbounded values", "anchors": ["src/codec/encode.rs"]}
{"id": "C41", "title": "Decoding terminates with recursion bounded by the input", "statement": "Decoding any input terminates. A result nested n deep took at least 3(n-1)+1 bytes; whether decoding succeeds or fails, the decoder of variants calls itself at most a third as deep (rounded up) as there are bytes, and on some inputs that deep; there is no constant bound on nesting.", "quantifier": "every input", "why_tests_cant": "termination and depth bounds are universal", "anchors": ["src/codec/decode.rs: Variant"]}
{"id": "C42", "title": "Decoded size is bounded by the input", "statement": "The number of nodes of a decoded generic value is at most the number of bytes consumed. For typed arrays this is violated: zero-width element encodings give up to 2^32 elements from a few bytes.", "quantifier": "every input", "why_tests_cant": "amplification attacks need all inputs considered", "anchors": ["src/codec/decode.rs: Vec, List, Variant"]}
{"id": "C43", "title": "Transfer payload is carried verbatim", "statement": "The bytes behind a transfer performative become its body unchanged; an absent body and an empty body are indistinguishable on the wire; encoding appends the body bytes after the performative and counts them in the frame length.", "quantifier": "every transfer and every payload", "why_tests_cant": "payloads are arbitrary", "anchors": ["src/protocol/definitions.rs: decode_transfer_inner, encode_transfer_inner", "src/protocol/mod.rs: TransferBody"]}
{"id": "C44", "title": "Application properties behave like a map", "statement": "Setting an application property on a received-style message and reading it back returns the value last set for that key and leaves other keys unchanged; on outgoing messages entries accumulate in order.", "quantifier": "every sequence of set operations", "why_tests_cant": "arbitrary operation sequences", "anchors": ["src/message/inmessage.rs: set_app_property, app_property", "src/message/outmessage.rs: set_app_property, app_property"]}
{"id": "C45", "title": "Replies correlate", "statement": "reply_message() yields a message whose correlation-id is the original's message-id and which is otherwise empty.", "quantifier": "every message", "why_tests_cant": "all property combinations", "anchors": ["src/message/inmessage.rs: reply_message", "src/message/outmessage.rs: reply_message"]}
{"id": "C46", "title": "Text equality ignores storage and agrees with hashing and ordering", "statement": "Str and Symbol values are equal exactly when their text is equal, however they are stored; equality is an equivalence. (The derived ordering disagrees with equality for mixed storage.)", "quantifier": "all pairs/triples of strings", "why_tests_cant": "laws over pairs and triples", "anchors": ["src/types/mod.rs: Str", "src/types/symbol.rs"]}
{"id": "C47", "title": "Generic value equality is sameness of value and makes maps behave as maps", "statement": "== on Variant holds exactly between Variants that mean the same value: same kind, same numbers, same text whatever the storage, floats equal as real numbers (both zeros alike, NaN like NaN), lists elementwise, maps with the same entries in any order. It is therefore an equivalence, and looking up a key after an insert gives the value inserted last for an equal key.", "quantifier": "all Variants, all keys and all maps", "why_tests_cant": "laws over triples of recursive values", "anchors": ["src/types/variant.rs"]}
{"id": "C48", "title": "SASL PLAIN response", "statement": "prepare_response builds authzid NUL authcid NUL password: the three parts can be recovered uniquely when the two ids contain no NUL.", "quantifier": "every triple of strings", "why_tests_cant": "all strings", "anchors": ["src/protocol/mod.rs: SaslInit::prepare_response"]}
{"id": "C49", "title": "Message sections: order-independent, last one wins, unknown refused", "statement": "Decoding a message accepts sections in any order; a repeated singleton section keeps the last occurrence, data sections accumulate in order, and an unknown section is an error.", "quantifier": "every sequence of well-formed sections", "why_tests_cant": "all permutations and repetitions", "anchors": ["src/message/inmessage.rs: decode", "src/message/outmessage.rs: decode", "src/protocol/definitions.rs: Section"]}
{"id": "C50", "title": "Decode of a whole message consumes it", "statement": "On success a message decoder returns the remainder of the input after the message. Violated: it returns the start of the last section as remainder.", "quantifier": "every message encoding", "why_tests_cant": "tests ignore the returned remainder", "anchors": ["src/message/inmessage.rs: decode", "src/message/outmessage.rs: decode"]}
{"id": "C51", "title": "Format codes of other types are refused", "statement": "A decoder of a type fails with InvalidFormatCode(c) on every input whose first byte c is not one of the format codes of the type.", "quantifier": "every type, every first byte, every continuation", "why_tests_cant": "24 composites, containers of containers and 256 codes with arbitrary continuations", "anchors": ["src/codec/decode.rs: validate_code!", "src/codec/mod.rs"]}
{"id": "C52", "title": "Text comparison of Variants agrees with as_str", "statement": "as_str is the text of a String or Symbol Variant and nothing otherwise; variant == text holds exactly if as_str is Some(text). Neither sees a StaticSymbol as text.", "quantifier": "every Variant and every text", "why_tests_cant": "equality over all constructors and all texts", "anchors": ["src/types/variant.rs: PartialEq<str>, as_str"]}
{"id": "C53", "title": "Exact language of the primitive decoders", "statement": "A primitive or enumeration decoder succeeds on exactly the encodings of the standard (any permitted width), returning the encoded value and everything after it. Stated deviation: the boolean 0x56 form accepts every nonzero byte as true; timestamps outside chrono's range panic.", "quantifier": "every primitive and enumeration type, every input", "why_tests_cant": "both directions over all inputs: soundness needs all rejected inputs", "anchors": ["src/codec/decode.rs"]}
{"id": "C54", "title": "Exact language of the compound decoders", "statement": "For every type (generic values, lists, maps, arrays, options, Multiple, all composites, all unions) there is a grammar, written without reference to the decoder, such that decoding succeeds exactly on inputs starting with a sentence of the grammar, returns the value the grammar gives, and leaves exactly the rest. No input has two readings, and everything the standard allows for representable values is in the grammar. The deviations are explicit in the grammar: list and array size fields are not checked against the content; the odd key and trailing bytes of a map are skipped; a repeated map key keeps its first position and last value; the descriptor 0x44 is refused.", "quantifier": "every type of the crate, both build modes, every input, every value, every rest", "why_tests_cant": "both directions of an equivalence over all byte strings and unboundedly nested values", "anchors": ["src/codec/decode.rs", "src/protocol/definitions.rs", "src/types/variant.rs"]}
{"id": "C55", "title": "Messages are laid out as the standard says", "statement": "The encoding of a message is the concatenation of the encodings of its sections in the order header, delivery annotations, message annotations, properties, application properties, body (data, sequences, value, then nested messages as data), footer. Each section is an encoding the standard allows; kinds ascend; no non-body section occurs twice; there is always a body section.", "quantifier": "every well-typed message, nested messages included", "why_tests_cant": "needs every combination of sections; a reader that accepts any order cannot notice a wrong order in a round-trip test", "anchors": ["src/message/inmessage.rs: encode", "src/message/outmessage.rs: encode", "src/message/body.rs: encode"]}
{"id": "C56", "title": "Builder calls change exactly what they name", "statement": "set_header, set_properties, set_app_property, set_value, set_body, set_data, with_body, with_messages, update and if_some produce the named section with the given content and leave every other section, the message format and the rest of the body as they were; the accessors return what was set; a TransferBody has the bytes, length and format of what it carries.", "quantifier": "every message, every argument, every closure", "why_tests_cant": "frame conditions: nothing else changes, for every prior content", "anchors": ["src/message/inmessage.rs", "src/message/outmessage.rs", "src/message/body.rs", "src/protocol/mod.rs: TransferBody"]}
{"id": "C57", "title": "Transfer on its own and inside Frame agree", "statement": "Decoding a Transfer directly succeeds exactly when decoding a Frame gives that transfer, with the same remainder; its encoding and size are those of the frame; it survives encode and decode up to canonical form; other descriptors are refused.", "quantifier": "every input and every transfer", "why_tests_cant": "two separately generated decoders must agree on all inputs", "anchors": ["src/protocol/definitions.rs: impl DecodeFormatted for Transfer, impl Decode for Frame"]}
{"id": "C58", "title": "Hashing agrees with equality, and panics exactly on maps", "statement": "Whatever the hasher, two equal Variants, descriptors or strings make the same sequence of calls on it, provided the hashing of the external float and String types agrees with their equality. Conversely, provided external floats and timestamps are told apart by their calls, different values are told apart by theirs, and no value's calls are the beginning of another's: for values without maps, the calls are the same exactly if the values are equal. Hashing panics exactly if the walk over the value meets a map.", "quantifier": "every pair of equal values, every hashing of the external types meeting the stated assumption", "why_tests_cant": "a law over all pairs of recursive values and all hashers", "anchors": ["src/types/variant.rs: derive(Hash), impl Hash for VariantMap", "src/types/mod.rs: impl Hash for Str", "src/types/symbol.rs: impl Hash"]}
{"id": "C59", "title": "What was received can be sent on unchanged", "statement": "A value that was decoded, then encoded and decoded again, is the same value, whatever form it was first received in; a second encoding has the bytes and size of the first. The same holds for frames, messages with a body, and whole streams of frames passed on by a relay. Excluded are lists (C06), descriptor 0 and other values the decoder does not handle; instants need no exception.", "quantifier": "every type, every input, every chunking on both connections, both build modes", "why_tests_cant": "a fixpoint law over all inputs, including long forms and unknown names", "anchors": ["src/codec/decode.rs", "src/codec/encode.rs", "src/io.rs", "src/message/inmessage.rs"]}
{"id": "C60", "title": "The specification file describes the standard's types", "statement": "Read by the generator, specification.json gives for every composite type, transfer, enumeration, union and alias exactly the table of the standard: descriptor name and code, fields in order with names, types, optionality and default values, enumeration items with their values, union members in order. Every table is covered, no two definitions share a name, and types are named after their descriptors. MessageId, ErrorCondition and Frame are left to hand-written code.", "quantifier": "every entry of the file; every behaviour of is_uppercase outside ASCII", "why_tests_cant": "a field with a wrong type or default still compiles and round-trips with itself; only comparison with the standard shows it", "anchors": ["codegen/specification.json", "codegen/mod.rs: parse, Definitions::from"]}
{"id": "C61", "title": "The code template is right for every table", "statement": "For every struct, enumeration, restricted type and union that can be described, built from the types of the crate or from generated ones, the generated encoder's size is the length of what it writes, decoding inverts encoding, and every encoding of the standard is read. The types in src/protocol/definitions.rs are what the template gives for their tables. The size is exact only if the descriptor code has one byte and the symbols of an enumeration are shorter than 256 bytes.", "quantifier": "every table of fields, options or items, of any length and nesting; every value", "why_tests_cant": "tests see the tables that exist today; the claim is about all tables the generator can be given", "anchors": ["codegen/definitions.rs", "src/protocol/definitions.rs"]}
{"id": "C62", "title": "Names made by the generator", "statement": "A type name is the words of the name with capitals, written together; a field name is the words joined by underscores, with an underscore added to type and return. Different lower-case names joined by hyphens give different type names, and the function name made from a type name is the field form of the original name if every word but the last has two letters.", "quantifier": "every name", "why_tests_cant": "injectivity over all names", "anchors": ["codegen/mod.rs: camel_case, snake_case", "codegen/definitions.rs: snake helper"]}
{"id": "C63", "title": "One definition for each type of the specification", "statement": "Whatever types are given, the definitions handed to the template are, in order, one for each alias, enumeration, list and restricted type, with its name, Rust type, provides list, descriptor numbers, fields and defaults; and there is one union for each name provided by at least two types, holding exactly those types in order, generated as code unless it is Frame or has no descriptors.", "quantifier": "every list of types", "why_tests_cant": "all specifications, with any spacing in provides and any number of providers", "anchors": ["codegen/mod.rs: Definitions::from, register_provides, parse_provides, Descriptor::from, Field::from"]}
{"id": "C64", "title": "When the generator stops", "statement": "Generation succeeds exactly if every list and every restricted type has a descriptor code of at least two hexadecimal numbers below 2^32 written 0x and separated by colons; otherwise it panics. What it cannot handle in other ways it should refuse.", "quantifier": "every list of types; every JSON value", "why_tests_cant": "an equivalence over all inputs of the build step", "anchors": ["codegen/mod.rs: Descriptor::from, _Type, string_as_bool"]}
{"id": "C65", "title": "Reading the specification file", "statement": "A JSON value is read as an array of types, each the first of choice, described type and alias whose required entries are present exactly once with the right kind of value; optional entries may be missing and unknown entries are skipped, in any order. If no such reading exists the build stops with 'Failed to parse AMQP spec.'; it stops with 'Error parsing bool from string' only if a flag of a field is a text other than true and false.", "quantifier": "every JSON value", "why_tests_cant": "all orders of entries, all repeated, missing and unknown entries, at every nesting", "anchors": ["codegen/mod.rs: parse, _Type, _Descriptor, _Enum, _Described, _Field, _Alias, EnumItem, string_as_bool"]}
{"id": "C66", "title": "The generated code is acceptable Rust", "statement": "For specification.json: every generated name is an identifier and no keyword; the fields of a struct, the items of an enumeration (and their values), the options of a union (their types, codes and descriptor names) and the generated functions have distinct names; and every field given out by value has a Copy type. For any names of small letters and digits in words joined by hyphens the generated names are identifiers.", "quantifier": "all definitions from specification.json; every name made of plain words", "why_tests_cant": "a build only shows the present file compiles; the statement about names is over all names", "anchors": ["codegen/definitions.rs: struct, accessors, enum, provides", "codegen/mod.rs: camel_case, snake_case, REF_TYPES", "codegen/specification.json"]}
{"id": "C67", "title": "Equality of protocol values, messages and frames", "statement": "The derived == on every protocol type, on messages and on frames says that they are the same field by field: texts by their bytes, hash maps by their entries in any order, floats as numbers (all NaNs equal); it is an equivalence; equal values have the same encoded size. What is sent and received again is equal to the original exactly if nothing is lost on it (named precisely: fractions of milliseconds, custom symbols that are predefined, ...), and equal values are received as equal ones, except that a message carried by a transfer or nested in a message comes back as its bytes, which depend on the order of hash maps. A message asked for its size for the first time no longer equals what it was.", "quantifier": "all values of all protocol types, all InMessages and OutMessages with any nesting, all frames; both build modes", "why_tests_cant": "all pairs and triples of values, all orders of hash maps, all nestings", "anchors": ["protocol/generated definitions: derive(PartialEq)", "protocol/mod.rs: TransferBody", "message/inmessage.rs, outmessage.rs, body.rs: derive(PartialEq)", "framing.rs: AmqpFrame, SaslFrame", "types/mod.rs, types/variant.rs: PartialEq"]}
{"id": "C68", "title": "The exact language of frames, messages and streams", "statement": "What frames carry, whole AMQP and SASL frames, messages and streams of frames each have one grammar, and the decoders read exactly what it says: every input in it, as the value it gives, and no other input. A performative other than a transfer leaves what follows it; a transfer takes everything as its payload. After any bytes, received in any pieces, the state of a stream and what it has delivered are the ones the rules give: frames one after the other, then a wait for less than eight bytes or for the rest of a frame, or the end after an error, unread bytes or a panic. No bytes can be read as two different sequences of frames.", "quantifier": "all byte strings, all ways to cut them into pieces, both build modes", "why_tests_cant": "an equivalence over all inputs: tests can neither show that nothing else is accepted nor try all cuttings", "anchors": ["codec/decode.rs: Transfer, Frame, AmqpFrame, SaslFrame, decode_frame_header", "message/inmessage.rs: Decode for InMessage", "io.rs: AmqpCodec"]}
{"id": "C69", "title": "Memory asked for in advance", "statement": "While decoding, room is reserved for the elements of lists, maps and arrays as their headers announce them. Whatever the input, there are no more reservations than bytes and each is for less than 2^32 places. If decoding succeeds, all reservations together are for fewer places than bytes were consumed (arrays of booleans and unsigned numbers aside, whose elements may take no bytes). If it fails this is not so: nine bytes reserve 2^32 - 1 places, n nested headers n times as much, and an Open frame of 29 bytes 2^31 - 1 map entries.", "quantifier": "all byte strings, all types of the crate including nested maps, lists and arrays, all AMQP and SASL frames and messages; both build modes", "why_tests_cant": "a resource bound over all inputs of unbounded length and nesting; a failing case would have to allocate hundreds of gigabytes to be seen", "anchors": ["codec/decode.rs: HashMap, Vec, VecVariantMap, Multiple, List, Variant, AmqpFrame, SaslFrame", "protocol/generated definitions: decode functions", "message/inmessage.rs: Decode for InMessage"]}
{"id": "C70", "title": "An error other than Incomplete is final", "statement": "If decoding fails with an error other than Incomplete, it fails with the same error whatever bytes follow the input; so does a panic other than an index out of range. Incomplete always carries a number n >= 1, and any continuation of the input that does decode consumes at least n bytes. A value cut anywhere gives Incomplete with no more than the whole takes (never another error), or an index out of range; for the types that cannot panic always the former. An AMQP frame cut anywhere does so too, unless its header alone is there, which is read as a frame of nothing, or all of a transfer but some of the payload, which is read as a transfer with less payload; a message does so unless it is cut between two sections, and then the sections that are there are read. The converse, that Incomplete can be completed, is false: a map of no bytes that announces an entry asks for one more byte forever.", "quantifier": "all byte strings and all continuations, all types of the crate, AMQP frames, SASL frames and messages, all cuts of all encodings; both build modes", "why_tests_cant": "the claim is about all continuations of all failing inputs; a test sees one continuation", "anchors": ["codec/decode.rs: decode_check_len!, all DecodeFormatted impls", "framing.rs: decode_frame_header", "message/inmessage.rs: Decode for InMessage", "protocol/generated definitions: decode functions"]}
{"id": "C71", "title": "What an error says about the input is true", "statement": "An InvalidFormatCode names a byte of the input; an InvalidChar a code in the input that is no scalar value; an InvalidDescriptor a descriptor that stands in the input; RequiredFieldOmitted a mandatory field of a composite type whose descriptor stands in the input; UnknownEnumOption an enumeration, and the input holds a number or symbol that is none of its options; a Utf8Error means a counted text that is not UTF-8; UnexpectedFrameType carries the second byte of the frame, which is not the type expected; InvalidSize means a data offset below 2. No other errors are reported (no InvalidSize or frame type for values, no UUID error at all).", "quantifier": "all byte strings, all types of the crate, AMQP frames, SASL frames and messages; both build modes", "why_tests_cant": "soundness of every error for every failing input, at any nesting depth", "anchors": ["errors.rs: AmqpParseError", "codec/decode.rs", "framing.rs: decode_frame_header", "protocol/generated definitions: decode and try_from functions"]}
{"id": "C72", "title": "Values of 4 GiB and more are cut without an error", "statement": "A length field holds the length modulo 2^32. So binaries, strings and symbols come back as they were sent exactly if they are shorter than 2^32 bytes; of longer ones the first (length mod 2^32) bytes are read (for texts: if they are UTF-8, else Utf8Error) and the others are left as input. The length before a frame is its real length modulo 2^32; a transfer whose payload ends in frames of 2^32 bytes together (or a multiple) is received as a shorter transfer and those frames, however the stream is cut into chunks, and any sequence of frames can be filled up to such a payload. Likewise sections at the end of such a message body are received as sections of the message. Refuted: that every well-typed binary, text, frame and message comes back as sent.", "quantifier": "all values, rows of transfer fields, payloads, sequences of frames and sections that can be sent, all chunkings; both build modes", "why_tests_cant": "values of more than 4 GiB, with any frames or sections inside", "anchors": ["codec/encode.rs: encoded_size, encode of Bytes, ByteStr, Str, Symbol", "codec/encode.rs: Encode for AmqpFrame", "io.rs: Decoder", "message/inmessage.rs", "message/outmessage.rs", "message/body.rs"]}
{"id": "C73", "title": "Several codecs on one connection", "statement": "On a connection the application begins with the codec of protocol headers and installs another codec (headers, SASL frames, AMQP frames) after any item it likes, the buffer being kept. For every application: items sent by the encoders, of the kinds it expects, are received, in order and as sent, through any chunks, and the application ends in the state it should with a fresh codec and an empty buffer. Whatever bytes arrive, the items seen are exactly what stands in the bytes, each of the kind in use at that point, and after them the connection waits or has failed with the codec's error; what is seen depends only on the bytes and not on the chunks. After an item a codec is as good as new, so that exchanging it loses nothing. Refuted: that a codec can be exchanged while it waits (the length is lost). A frame of the wrong kind is refused with UnexpectedFrameType, a frame instead of a header with InvalidHeader; a protocol header instead of a frame is not noticed: no item and no error before 1095586128 bytes have arrived.", "quantifier": "all applications (functions of state and item), sequences of items, byte strings, chunkings; both build modes", "why_tests_cant": "every way an application may exchange codecs together with every way the bytes are cut; the header case needs a gigabyte to show", "anchors": ["io.rs: AmqpCodec::new, Decoder for AmqpCodec", "io.rs: Decoder for ProtocolIdCodec", "framing.rs: SaslFrame, AmqpFrame"]}
{"id": "C74", "title": "Conversions and accessors", "statement": "Every From conversion of the crate between types that can be sent is faithful: a value and what it is converted to (a Variant, Str, MessageId, ErrorCondition or Frame) have the same size and the same bytes, and the reader of the second type gives the converted value exactly where the reader of the first type gives the value, with the same bytes left. A SASL frame made of a part is the eight-byte header followed by the part, in both directions. A static symbol is sent like a symbol, a described value as its descriptor and its value, a transfer body as the bytes or the message it is made of. However a Str, Symbol or text Variant is made of a text, every accessor gives the text back (as_bytes_str never fails), it is sent as the text and equals the same text and no other. Frame::name is the standard's name of the performative. The parts of an AMQP frame are those it was made of; Multiple has the length and items of its vector. A symbol written as an item of an array is read back as one. Refuted: that an ErrorCondition made of a symbol is received as one (the standard's names come back as the standard's errors), and that the clone of an AmqpCodecError is the error (an I/O error is dropped; every other error is kept).", "quantifier": "all values of all types with a conversion, all byte strings, both build modes, all texts", "why_tests_cant": "agreement of two readers on all byte strings and all values, for 43 conversions", "anchors": ["types/variant.rs: Variant, From, as_bytes_str", "types/mod.rs: Str, Multiple, List", "types/symbol.rs: Symbol, StaticSymbol", "protocol/mod.rs: MessageId, ErrorCondition, TransferBody", "protocol/definitions.rs: Frame, Frame::name", "framing.rs: AmqpFrame, SaslFrame", "errors.rs: Clone for AmqpCodecError"]}
{"id": "C75", "title": "Work done while decoding", "statement": "Whatever the input and whether or not decoding succeeds, a decoder begins at most one value more than there are bytes (a value is begun by each call of decode and for each element of an array); if it succeeds, at most as many as bytes were consumed. This holds for every type, for frames and for messages, and it is reached up to the nine bytes of a list header. Excepted are arrays of booleans and unsigned numbers, whose elements may take no bytes: ten bytes begin up to 2^32 values.", "quantifier": "all types without such arrays, all frames and messages, all byte strings, both build modes", "why_tests_cant": "The bound is over all inputs, including hostile ones with nested headers that announce up to 2^32 elements; a slow input must be found before a test can show it.", "anchors": ["codec/mod.rs: impl Decode for T", "codec/decode.rs: HashMap, Vec, VecVariantMap, List, Variant, Option, Multiple", "protocol/definitions.rs: decode_*_inner", "message/inmessage.rs: InMessage::decode"]}
{"id": "C76", "title": "The functions that read the fields of a struct", "statement": "Each of the 24 generated structs has exactly one function for each field of the standard's table, with the name of the field; no name is used twice. Whatever encoding of its fields a struct is read from (fields left out, nulls, more elements than fields, unread bytes), each function gives the value encoded at the position of the field of its name: the default or no value for a null or a field left out. What a function gives for the received struct is what it gives for the struct that was sent. For a transfer, body gives the payload. The same holds for every table of fields that the template may be given, and the functions of the crate are what the template gives for its tables.", "quantifier": "all structs, all encodings of all their fields, all following bytes, both build modes; all tables of fields", "why_tests_cant": "119 functions that all look alike; exchanging two fields of the same type is seen only by a test that sets both to different values, for every pair", "anchors": ["protocol/definitions.rs: impl Open, Begin, Attach, Flow, Transfer, Disposition, Detach, End, Close, Error, Source, Target, Header, Properties, ...", "codegen/definitions.rs: lines 297-331"]}
{"id": "C77", "title": "What errors print", "statement": "Different errors print different texts (AmqpParseError, AmqpCodecError, ProtocolIdError). Numbers are printed in decimal. The text printed for an error of a decoder is true of the bytes that were read: the format code, frame type, character or descriptor it shows is in the input, the field it names is a mandatory field of the type whose label is in the input, the number of bytes it asks for is at least 1. The message for an unexpected protocol names the expected one first. The clone of an error prints the same, except that an I/O error is lost. Debug of a symbol or descriptor tells which it is; Debug of several symbols, and a message being one line, are refuted.", "quantifier": "all errors, all inputs of all decoders, both build modes, any texts printed by other crates that begin with 'in' and differ", "why_tests_cant": "the texts contain numbers and names from the input; a test compares a few of them", "anchors": ["errors.rs: AmqpParseError, AmqpCodecError, ProtocolIdError (derive Display)", "types/mod.rs: impl Debug for Str"]}
{"id": "C78", "title": "The receiving buffer", "statement": "What is received does not depend on the room in the buffer. Whatever lengths a peer announces, the codec asks for room at most once per frame, and for 32768 bytes. The frame decoder is given each byte of the stream at most once, as part of the body of a complete frame, in order; so however the stream is cut, the number of values begun is at most the number of bytes received. Between calls the buffer holds less than one frame (less than 8 bytes, or less than what is missing of the frame whose length was read). After the length of an incomplete frame was read, there is room for min(max(4096, length + 8), 32768) bytes: enough for the rest of a frame if that is at most 32768 bytes. Refuted: that the buffer is extended to fit the whole frame. There is no limit on the length of a frame.", "quantifier": "all byte streams, all ways of cutting them, all decoders of frames, all capacities and allocator behaviours, both build modes", "why_tests_cant": "depends on how bytes arrive and on what capacity the allocator gives", "anchors": ["io.rs: impl Decoder for AmqpCodec, lines 44-82"]}
{"id": "C79", "title": "The two build modes agree", "statement": "Built with and without overflow checks, the decoders of all types, messages and frames give the same result, except that the build with checks may stop with an arithmetic panic; then the input holds a compound header whose size is too small for its own count. On a stream or a connection the checks can only cut off what is received. Without checks, a size of 0 in one byte is read as 255, and sizes 0 to 3 in four bytes as almost 4 GiB. Refuted: that both builds accept the same input.", "quantifier": "all types, all byte strings, all streams however cut, all applications on a connection, all element decoders", "why_tests_cant": "tests run in one build mode; the difference shows only on malformed headers, at any depth", "anchors": ["codec/decode.rs: decode_compound8, decode_compound32", "io.rs: impl Decoder for AmqpCodec, lines 52-56"]}
{"id": "C80", "title": "The generated file is what the template gives", "statement": "Rendering the template of the repository succeeds for all definitions: no tag asks for a value that is not there. The text has one block for each definition, in order, and what is written for one does not depend on the others. Each definition is declared with all its fields or options in their order; each struct is written and recognised with its descriptor, and all its fields are counted and written in order. If no name, type or default has a quote, an ampersand or an angle bracket, the HTML escaping of the template engine changes nothing; if none has a bracket, the brackets of the text are balanced. The file src/protocol/definitions.rs is, up to layout, what the template gives for specification.json with the alternatives in one of the orders of the hash map. Whether or not the engine leaves out lines that hold only a block tag, the text is the same up to blanks. For every set of definitions the functions that read and write each union, enumeration, described restricted type and struct are in the text, whole, with every option, item and field in its order.", "quantifier": "all definitions (rendering, blocks, escaping, brackets); all classifications of characters outside ASCII", "why_tests_cant": "the build script runs on one specification and overwrites the file it would have to be compared with; a missing path renders as nothing without an error", "anchors": ["build.rs: generate_from_spec", "codegen/definitions.rs", "codegen/mod.rs: Definitions (Serialize)", "protocol/definitions.rs"]}
{"id": "C81", "title": "A message sent in several transfers arrives whole", "statement": "If the transfers of a link, in the frames sent, carry the encodings of messages, each in any number of pieces with other frames between them, and possibly deliveries that are aborted, then an application that joins the payloads of the transfers of that link up to the one without more decodes exactly these messages, in order, through any chunks. Every message can be sent this way within any limit on the length of frames above 66 bytes (the smallest the standard allows is 512), in at most length / (limit - 66) + 1 frames. Whatever bytes arrive, the messages delivered are those that the transfers of the link among the frames seen carry, each read from the joined payloads of one delivery, and no others.", "quantifier": "all messages that can be sent, all splits into pieces, all interleavings with frames of other links and channels, all chunkings, both build modes", "why_tests_cant": "splits, interleavings and chunk boundaries multiply; a test fixes one of each", "anchors": ["src/protocol/definitions.rs: Transfer", "src/message/inmessage.rs: InMessage::decode", "src/io.rs: AmqpCodec", "src/framing.rs: AmqpFrame"]}
{"id": "C82", "title": "Values are measured again for each list and map around them", "statement": "While a generic value is encoded, encoded_size is called for each value in it exactly as often as there are lists and maps around it; one measurement of a value calls it once for each value inside. So the work is at most values times depth. It is not in proportion to the bytes: n lists in one another, which a peer can send in 9n+1 bytes and the decoder accepts, take n(n+1)/2 calls to encode again.", "quantifier": "all generic values, all depths, both build modes", "why_tests_cant": "a test of the output cannot see how often sizes are computed, and a timing at one depth says nothing about growth", "anchors": ["src/codec/encode.rs: list_encoded_size, map_encoded_size", "src/codec/encode.rs: impl Encode for List", "src/codec/encode.rs: impl Encode for HashMap", "src/codec/encode.rs: impl Encode for Variant"]}
