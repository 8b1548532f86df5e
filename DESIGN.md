# Formal model of amqp-codec: design

Source: `/repo` (crate `amqp-codec` 0.1.0, read as text, never built). Prover: Coq 8.16.1, stdlib only.

## 1. How the code is modelled

| Rust | Coq |
|------|-----|
| `&[u8]`, `Bytes`, contents of `BytesMut` | `list Z`; a byte is a `Z`, the predicate `byte_ok` (0 <= b < 256) is a hypothesis only where it is needed |
| `u8..u64`, `i8..i64`, `usize` | `Z`; ranges are explicit predicates; `as` casts are explicit `mod` |
| `Result<(&[u8], T), AmqpParseError>` | `res (list Z * T)` = `Ok`, `Err e`, `Panic p`, `Oof` (out of fuel) |
| panics (slice index, subtraction overflow, `unimplemented!()`, chrono range, missing buffer capacity) | explicit `Panic` value with its reason |
| overflow checks | parameter `mode` = `Debug` (subtraction underflow panics) or `Release` (it wraps); every theorem quantifies over it |
| `fn encode(&self, buf: &mut BytesMut)` | a list of write operations (`Put` = `put_*` which panics when capacity is short, `Ext` = `extend_from_slice` which grows); `wbytes` gives the bytes, `run_ops` executes them against a buffer with a capacity |
| traits `Encode`/`DecodeFormatted`/`ArrayEncode` | plain records `codec T`, `acodec T`; generic impls (`Option`, `Vec`, `Multiple`, `HashMap`) are functions from records to records |
| recursion of `Variant::decode` | fuel; fuel exhaustion is the distinct value `Oof`, and a theorem shows that it is never returned |
| `for _ in 0..count` loops | binary iteration on the count (`loop_n`), so counts up to 2^32 are the real ones |
| `String<Bytes>` / `&str` | byte list; `str::from_utf8` is modelled by an executable validator |
| `f32`/`f64` | bit patterns; `OrderedFloat` equality defined on bit patterns |
| `DateTime<Utc>` | pair (seconds, nanoseconds); chrono's representable range is a constant, out-of-range construction is a panic |
| `HashMap` | association list in iteration order; `insert` replaces the value of an equal key or adds an entry. Encoders are proved for every list, hence every iteration order |
| `Cell<usize>` size cache | an explicit field; `encoded_size` is split into the value returned and the state left behind |

Files (`rocq/theories/`):

* Model, function by function, with citations: `Base`, `Utf8`, `Types`, `Hash`, `Encode`, `Decode`, `Enums`, `Protocol`, `Definitions`, `Message`, `Frames`, `Io`, `Work` (the encoder of `Variant` with counters), `Equal` (derived `PartialEq`), `Reserve` (the decoders again, with the capacities they ask for in advance and the values they begin; proved to read the same), `Convert` (the `From` implementations and accessors of the types written by hand), `Accessors` (the functions that read the fields of the generated structs), `Display` (what errors print), `Room` (the receiving codec again, with the room in the buffer), `Connection` (the loop around the three decoders of io.rs on one buffer); the code generator: `Codegen` (codegen/mod.rs), `Template` (what codegen/definitions.rs gives, as functions), `SpecJson` (codegen/specification.json as a value), `Handlebars` (build.rs: the template compiled and rendered), `RepoText` (the template and the generated file as texts).
* Specifications, written from the AMQP 1.0 standard and not from the code: `Utf8Spec` (UTF-8 from scalar values), `Valid` (ranges and well-formedness), `Wire` (the encodings of every primitive and of Variant, with literal codes), `TypeSpec`, `CompositeSpec` (what "the type T is encoded as" means; field tables), `AllTypes` (the tables of the 24 composite types and the four unions), `CodecSpec`, `EqualitySpec` (when two values are the same value), `MessageSpec`, `FrameSpec`, `StreamSpec`, `EqualSpec` (when protocol values, messages and frames are the same), `ReserveSpec` (which decoder with capacities belongs to which type), `ErrorSpec` (what each error says about the input), `BoundSpec` (what is left of values of 4 GiB and more), `ConnectionSpec` (the items a connection is to see), `DeliverySpec` (applications that send and collect messages in pieces), `WorkSpec` (how often values are measured), `ModeSpec` (when the two build modes may differ). `GrammarSpec` (types) and `FrameGrammarSpec` (frames, messages, streams) describe what the crate reads, including where that is more or less than the standard; `GenSpec` (names, definitions and tables the generator is to give).
* Proofs: `BaseFacts`, `Utf8Facts`, `PrimFacts`, `DecLaws`, `EncLaws`, `VariantFacts`, `TypeFacts`, `CompositeFacts`, `AllTypesFacts`, `EqFacts`, `EqualityFacts`, `CodecFacts`, `MapFacts`, `ValueFacts`, `PanicFacts`, `SmallFacts`, `ExactFacts`, `CompositeReads`, `GrammarFacts`, `MessageFacts`, `BuilderFacts`, `FrameFacts`, `FramingFacts`, `StreamFacts`, `RelayFacts`, `FrameRelayFacts`, `EqualFacts`, `EqualFrameFacts`, `FrameGrammarFacts`, `ReserveFacts`, `ErrorFacts`, `BoundFacts`, `ConnectionFacts`, `DeliveryFacts`, `WorkFacts`, `ModeFacts`; `NameFacts`, `TemplateFacts`, `GenFacts`, `SpecFacts`, `JsonFacts` (generator); `RenderFacts`, `DeclFacts`, `BlockFacts`, `ReaderFacts`, `WholeFacts`, `BlankFacts` (the text it writes).
* Claims: `CodecClaims`, `EqualityClaims`, `CompositeClaims`, `GrammarClaims`, `MessageClaims`, `FrameClaims`, `StreamClaims`, `RelayClaims`, `EqualClaims`, `FrameGrammarClaims`, `ReserveClaims`, `ErrorClaims`, `BoundClaims`, `ConnectionClaims`, `DeliveryClaims`, `WorkClaims`, `ConvertClaims`, `GenClaims`, `AccessorClaims`, `DisplayClaims`, `RoomClaims`, `ModeClaims`, `RenderClaims`. They hold nothing but theorems named after the properties, each closed by `exact`, with `Print Assumptions` beneath and an `Example` beside it.

Vocabulary used in the claims:

* `tspec T` packs a codec of the model with its specification: `s_valid` (values the Rust type can hold), `s_wire v bs` (bs is an encoding of v the standard allows), `s_canon v` (the value a reader sees for v: a `Symbol::Static` becomes a heap symbol, and so on), `s_encodable` / `s_decodable` (the exact exclusions, e.g. no list inside, no descriptor `0x44`). `amqp_type S` is the closed family of all types of the crate, including every nesting of `Option`, `Vec`, `Multiple` and maps.
* `md` is the build mode; no theorem fixes it unless the claim is about one mode.

## 2. Trusted base

* The Coq kernel (8.16.1) and `vm_compute`.
* The reading of the Rust source: each definition cites file and lines. For the generated file the reading is checked by a script: `tools/check_transcription.py` writes out, from the text of `Enums.v`, `Definitions.v`, `Frames.v` and `Accessors.v`, the Rust items they stand for and looks up each in src/protocol/definitions.rs; all 267 items of that file other than its imports are matched (layout apart). It also compares `SpecJson.v` with codegen/specification.json and the format codes with src/codec/mod.rs. The script is not part of the build and no theorem depends on it.
* External crates, modelled from their documentation:
  `bytes` 0.4 (`put_*` appends and panics when `remaining_mut` is too small; `reserve(n)` guarantees `remaining_mut >= n`; `extend_from_slice` grows; `split_to` leaves at least the room there was),
  `byteorder` (big-endian reads), `chrono` 0.4 (`Utc.timestamp` panics outside its range or for nanoseconds >= 2*10^9; `timestamp()`, `timestamp_subsec_millis()`),
  `hashbrown` (a map with respect to `Eq`; `insert` hashes the key), `ordered-float`, `uuid` (16 raw bytes), `string` (UTF-8 checked wrapper), `core::str::from_utf8`, `char::from_u32`.
* Formatting (C77): derive_more 0.14 prints a variant without arguments by its name and a variant with one unnamed field as that field; `core::fmt` prints numbers in decimal and static texts without anything to escape between quotes; what uuid, UTF-8 and I/O errors print is a parameter, of which C77 assumes that the first two begin with "in" and differ and that I/O errors print differently.
* 64-bit `usize`; sums of sizes do not overflow 64 bits.
* `Hash` is consistent with `Eq` for map keys other than `Variant` (for which the `unimplemented!()` cases of `Hash` are modelled as panics), so a `HashMap` is a map with respect to `Eq`. `Hash.v` models the `Hash` impls of the crate as the sequence of calls made on the hasher; the hashing done by external types (`OrderedFloat`, `String<Bytes>`, `DateTime`) is a parameter, and C58 states the assumption on it as a hypothesis.
* A `HashMap` iterates in an arbitrary order. A map value is a list, its order standing for that order; theorems about encoding hold for every list. Where the code collects a decoded map into a `HashMap` (`OutMessage` application properties) the decoded list order stands for the unknown order.
* Memos: `encoded_size` of a message stores the size it computes, in it and in nested messages (`message_sized`); `encode` fills the memos of nested messages (`message_encoded`). Both effects are modelled and shown not to change what is written.
* The code generator: `serde_json` is modelled from the parsed JSON value on (struct fields in any order, unknown keys skipped, repeated keys refused, untagged enums tried in order; a struct written as a JSON array, which serde reads by position, is an error in the model); `SpecJson.v` is a mechanical transcription of codegen/specification.json; the template is given its meaning as functions on tables, so rustc is trusted; that the generated file is what the template gives is C80, where handlebars 0.27 is modelled for the tags the template uses (`Handlebars`: substitution, HTML escaping, `each`, `if`, the `snake` helper of build.rs), with and without the removal of lines that hold only a block tag, and rustfmt is replaced by the relation `same_code` (tokens; braces around a match arm, superfluous commas and semicolons, and the order of `use` items do not count); `RepoText.v` is written mechanically and compared with the two files by `tools/check_transcription.py`; `char::is_uppercase` outside ASCII is a parameter of the model; the order of a `HashMap` is not claimed.
* The reading loop of C34 and C73 is the contract of tokio's `Framed`, not code of the crate: append what arrived to the buffer, call `decode` until it gives `None`, stop at an error; a new codec may be installed after an item, the buffer being kept (`Connection`).
* Axioms: none are declared; see section 5 for the output of `Print Assumptions`.

Not modelled: what happens when memory is exhausted (how much is asked for in advance is characterised, C69), the memory a collection takes beyond the capacity asked for (growth, hash table load), stack exhaustion by deep nesting (the depth itself is characterised, C41), `Debug` formatting other than that of symbols, descriptors and what errors print (C77), tokio's `Framed` driver other than "append chunk, call decode until it returns None", `build.rs` other than the rendering of the template (files, rustfmt; the rendering is C80), the derived `Clone` and `Debug` of the generated structs.

## 3. Plan per property

| Property | Modelled by | How proved |
|---|---|---|
| C01 | all primitive codecs | round-trip lemma per codec from big-endian encode/decode inverse |
| C02 | `size` component of every codec | structural induction (Variant, message), per-composite computation through a generic field-list lemma |
| C03 | primitive encoders | equality with literal layouts in the spec; minimality over the spec's encoding relation |
| C04 | `Variant` decoder | induction over the wire grammar (an inductive relation between values and bytes) |
| C05 | `Variant` codec | induction on the value; equality up to the modelled `PartialEq` |
| C06 | `List` codec | refutation for every list |
| C07, C08, C09 | all decoders | law of each codec, composed through combinators; induction on fuel for Variant |
| C10 | all decoders | invariant on decoded values |
| C11 | UTF-8 validator | equivalence with the encoder of scalar values |
| C12 | all decoders | witnesses for panics; panic-freedom for the rest |
| C13, C14 | map/list/array decoders | characterisation lemmas, witnesses |
| C15, C16 | `Vec`, `Multiple` | generic round-trip lemma with exact exception |
| C17-C20 | 24 composite types | each transcribed decoder/encoder is shown equal to a generic field-list codec; generic theorems |
| C21-C24 | descriptors, dispatch enums, enumerations | case analysis and generic lemmas |
| C25-C29 | messages | mutual structural induction; witnesses |
| C30 | timestamps | integer arithmetic |
| C31, C32 | frames | composition |
| C33-C37 | stream codec as a state machine | invariant / simulation with a one-shot parser on the concatenation |
| C38 | protocol header | case analysis |
| C39 | buffers with capacity | induction over write operations |
| C40 | all round-tripping types | corollary of round trip |
| C41, C42 | Variant decoder | induction on fuel; families of witnesses |
| C43-C45, C48-C50 | transfer, messages, SASL | computation and induction |
| C46, C47, C52 | equalities | induction on values; `==` compared with an inductive "same value" relation |
| C58 | hashing | induction on values, for every hashing of the external types |
| C51, C53, C54 | all decoders | exact languages and grammars; equivalences in both directions |
| C55, C56 | messages | concatenation of sections; frame conditions per builder call |
| C57 | transfer | both dispatchers compared |
| C59 | all types, frames, messages, streams | decoded values are canonical; canonical form keeps the encoding |
| C60 | `Codegen`, `SpecJson` | the file is parsed by computation; each entry is matched with its table by constructor search |
| C61 | `Template` | structural induction on tables; the crate's types are shown equal to instances of the template |
| C62 | `camel_case`, `snake_case` | induction on words |
| C63, C64 | `Codegen` | induction on the list of types; relational specification |
| C65 | `Codegen` | induction on the entries of an object, one slot for each known entry |
| C66 | `Codegen`, `SpecJson` | boolean checks proved sound and evaluated on the definitions of the specification; induction on words |
| C67 | `Equal` | one record of laws per type (`agrees`), composed over field tables and alternatives; induction on nested messages |
| C68 | frames, messages, streams | `C54`'s grammars extended by the transfer and its payload; induction on sections; a relational account of the reading loop |
| C69 | `Reserve` | one budget for requests made and bytes consumed, by mutual induction over types, fields, composites and unions; used twice, with different weights |
| C75 | `Reserve` | the same budget as for C69 with a third weight: one for each value begun |
| C78 | `Room` | the codec with room is the codec without (step by step); requests are paid by frames handed to the decoder; an invariant for the length read and the bytes left; C75 summed over the frames |
| C79 | `Decode`, `Frames`, `Io`, `Connection` | a law of pairs of readers (equal, or the first stops and the input holds a short header), closed under the combinators; induction over types, fields and unions; then over calls and chunks |
| C80 | `Handlebars`, `RepoText`, `Codegen` | shapes of the values in scope; texts in scope; a stack machine for brackets; parts of a block rendered with symbolic names; independence of the root; the comparison with the file in the repository computed |
| C81 | `DeliverySpec` (two applications), `Frames`, `Message`, `Io`, `Connection` | C43, C26 and C73 put together; induction over deliveries; the size of a transfer head bounded field by field |
| C82 | `Work` (the encoder of `Variant` with counters), `WorkSpec` | induction over values; one more list around a value costs one call for each value in it; lists in lists for the growth |
| C77 | `Display` | decimal digits by induction on the number; the fixed parts of the messages compared, then what is between them; C71 for what is true of the input |
| C76 | `Accessors`, `Template` | the functions of each struct are those the template gives for its table; those tell what the fields are, by induction over the table |
| C70, C71 | all decoders, frames, messages | a law of readers under more input, and one for what errors say, closed under the combinators; the induction of C69 over types, fields, composites and unions |
| C72 | var-length encoders, frame encoder, message encoder | four length bytes depend on the length modulo 2^32 only; then C13, C34 and C24 for what is left over. The witnesses hold a run of about 2^32 zeros that is never computed |
| C73 | the three decoders of io.rs under one application, `AmqpCodec::new` | one call of a codec on more bytes, on the bytes left and on a fresh codec; induction over the loop with the application as a parameter |
| C74 | all `From` implementations and the accessors of types, protocol, framing.rs and errors.rs (`Convert`) | by computation for what is sent; case analysis over format codes, descriptors and names for what is read |

## 4. Findings (the code disagrees with the property)

Each is proved on the model, most of them for whole families of inputs; the witness theorems end in `_refuted`.

| # | Finding | Theorems | Code |
|---|---|---|---|
| 1 | `List` is encoded with the array codes `e0`/`f0`: no list round-trips, and no message with an amqp-sequence | `C06_list_round_trip_refuted`, `C26_sequence_refuted` | encode.rs, `impl Encode for List` |
| 2 | `Vec` whose content is 254 bytes: the 8-bit size wraps to 0; debug decoders panic | `C15_array_round_trip_refuted` | encode.rs, `impl Encode for Vec` |
| 3 | Panics on received bytes: map or array shorter than its header says, size field smaller than the count, timestamps chrono cannot hold, maps whose key holds a map; reachable by whole AMQP and SASL frames | `C12_*`, `C12_frame_refuted` | decode.rs |
| 4 | Size fields of lists and arrays are not checked against the content | `C14_list_size_refuted` | decode.rs |
| 5 | Timestamps before 1970 with a fractional second are decoded wrongly; encoding and decoding mirror each other's error only partly | `C30_mirrored_refuted`, `C30_whole_second_refuted` | decode.rs, `datetime_from_millis` |
| 6 | A few bytes can announce 2^32 elements of zero width: time and memory out of proportion to the input | `C42_array_amplification_refuted`, `C75_arrays_refuted` | decode.rs, `impl DecodeFormatted for Vec` |
| 7 | `encoded_size` of a message with a header section is too large by 3; frames carrying it announce a length 3 too large, nested messages become unreadable | `C25_*_refuted`, `C32_length_refuted` | inmessage.rs, outmessage.rs |
| 8 | `set_value` leaves the size memo stale: wrong frame length, and a capacity panic in the stream encoder; inside a nested message that was encoded before, the new value is read as the value of the outer message | `C28_set_value_refuted`, `C39_stale_refuted`, `C28_encode_then_edit_refuted` | inmessage.rs, outmessage.rs |
| 9 | Asking a message for its size changes whether it equals another message | `C29_equality_refuted`, `C67_message_asked` | derived `PartialEq` on a `Cell` |
| 10 | Message decoding returns the last section as the unread remainder | `C50_consumed_refuted` | inmessage.rs, outmessage.rs |
| 11 | The stream decoder keeps the length of a bad frame: the next frame is lost; after a frame of length 4 it fails forever without consuming | `C36_*` | io.rs |
| 12 | Frame lengths 0..3: debug builds panic, release builds wait forever | `C37_debug_refuted`, `C37_release_refuted` | io.rs |
| 13 | `Str` order is not consistent with its equality | `C46_order_refuted` | types/mod.rs |
| 14 | A static symbol is not equal to the symbol it is decoded as (inside Variant) | `C05_static_symbol_refuted`, `C52_static_symbol_refuted` | types/symbol.rs |
| 15 | Hashing a Variant that holds a map panics (`unimplemented!()`) | `C58_panics` | types/variant.rs |
| 16 | A described value with descriptor 0 in long form is accepted, but what is encoded for it is refused; a message without body gains an empty data section when it is sent on | `C59_descriptor_zero_refuted`, `C59_empty_message_refuted` | decode.rs, inmessage.rs |
| 17 | The template counts 3 bytes for any descriptor and 2 for the header of any enumeration symbol: codes above 255, code 0 and symbols of 256 bytes get a wrong size (latent: the specification has none) | `C61_long_code_refuted`, `C61_long_symbol_refuted` | codegen/definitions.rs |
| 18 | The generator drops described types that are neither lists nor restricted, and reads a described type with a flawed field as an alias | `C64_dropped_refuted`, `C64_flaw_refuted` | codegen/mod.rs |
| 19 | `is_str` of a field is never true: Rust names are compared with AMQP names (dead code in the template) | `C64_no_strings` | codegen/mod.rs, `STRING_TYPES` |
| 20 | Of the Rust keywords only `type` and `return` are avoided by `snake_case` (harmless for the present specification.json) | `C66_keyword_refuted` | codegen/mod.rs, `snake_case` |
| 21 | Equal transfers (or messages) that carry a message with a hash map in another order are received as different ones | `C67_frames_received_refuted`, `C67_messages_received_refuted` | protocol/mod.rs, `TransferBody` |
| 22 | Room is reserved for as many elements as a header announces before looking for them: nine bytes ask for 2^32 - 1 places, nested headers for that many each; an Open frame of 29 bytes for 2^31 - 1 map entries | `C69_bounded_refuted`, `C69_nested`, `C69_open_refuted`, `C69_sasl_refuted`, `C69_message_refuted` | decode.rs, `with_capacity` |
| 23 | `Incomplete` does not mean that more bytes help: a map, list or composite whose entries run past its own size asks for more whatever follows | `C70_incomplete_refuted` | decode.rs, decoding within `&input[..size]` |
| 24 | Lengths are written `as u32` without a check: a payload of 4 GiB or more is cut, and frames within it are received as frames, sections within a message body as sections of the message | `C72_binary_refuted`, `C72_text_refuted`, `C72_frame_refuted`, `C72_message_refuted` | encode.rs, `put_u32_be(.. as u32)` |
| 25 | A peer that sends a protocol header where a frame is expected (the standard's answer to an unsupported version) gets no error: "AMQP" is taken for a length of 1095586128 and the codec waits for that many bytes. And a codec that has returned `None` may hold the length of a frame that is in no buffer any more, so it cannot be exchanged then | `C73_header_unnoticed`, `C73_exchange_refuted` | io.rs:47-68 |
| 26 | The clone of an `AmqpCodecError::Io(Some(e))` is `Io(None)`: the cause is dropped | `C74_clone_refuted` | errors.rs:37-45 |
| 27 | `Debug for Str` does not escape: a list of two symbols and a list of one print alike, and a peer can put line breaks into an error message | `C77_symbols_debug_refuted`, `C77_one_line_refuted` | types/mod.rs:168-175, errors.rs:16 |
| 28 | The receiving buffer is not extended "to fit the whole frame": 32768 bytes are reserved whatever the length, and nothing limits the length of a frame, all of which is kept until its last byte arrives | `C78_fits_refuted`, `C78_unlimited` | io.rs:56-62 |
| 29 | Built without overflow checks, a compound value of size 0 is read as one of 255 bytes: what follows it is swallowed and the result is `Ok`. With four-byte sizes the decoder asks for almost 4 GiB. The checked build panics on the same input | `C79_same_refuted`, `C79_composite_wraps`, `C79_composite_waits` | codec/decode.rs:532-550 |

Also visible in the statements: descriptors encoded as `ulong0` are rejected; `Variant` cannot hold arrays; null for a mandatory field is reported as an invalid format code; an empty transfer body is received as none; a message body is received as bytes; `boolean` byte values other than 0 and 1 are accepted as true.

## 5. Assumptions reported

`Print Assumptions` prints "Closed under the global context" for every theorem of the claims files: no axiom is used. `coqchk -o` lists seven axioms of `Coq.ssr.ssrunder`, which belong to a library file that the standard library's `lia`/`zify` support loads; no theorem depends on them.

## 6. Wrong programs tried

`seeded/LOG.jsonl` records edits made to the model in a scratch copy, the claim each breaks, and the theorems that stopped being provable.
