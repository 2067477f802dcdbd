#!/usr/bin/env python3
# Generates /verif/properties.jsonl (one JSON object per line).
import json
P=[]
def p(id,title,statement,quantifier,why,anchors):
    P.append(dict(id=id,title=title,statement=statement,quantifier=quantifier,why_tests_cant=why,anchors=anchors))
H="protohelpers/protohelpers.go"; M="features/marshal/marshalto.go"; U="features/unmarshal/unmarshal.go"
S="features/size/size.go"; E="features/equal/equal.go"; C="features/clone/clone.go"; PO="features/pool/pool.go"
G="generator/generatedfile.go"; GE="generator/generator.go"; HE="generator/helpers.go"; PA="generator/pattern/match.go"; FE="generator/features.go"

p("C01","SizeOfVarint is the exact minimal varint length",
 "For every uint64 x, SizeOfVarint(x) is the least n >= 1 such that x < 128^n; in particular it lies in 1..10 and equals the number of bytes EncodeVarint writes for x.",
 "every uint64 value","2^64 inputs; the formula (Len64(x|1)+6)/7 could be wrong at any single boundary",[H+":SizeOfVarint"])
p("C02","EncodeVarint writes the canonical varint just before the offset and nothing else",
 "EncodeVarint(dAtA, offset, v) returns offset-SizeOfVarint(v), stores the canonical base-128 little-endian varint of v in dAtA[offset-n:offset], leaves every other byte of dAtA unchanged, and panics exactly when the n bytes do not fit in front of offset.",
 "every buffer, offset and uint64","ranges over all buffers and values; frame conditions (nothing else changes) are not testable exhaustively",[H+":EncodeVarint"])
p("C03","Varints decode to what was encoded, for every Go integer type",
 "The varint loop emitted by the unmarshal feature, run on the canonical varint of a value of type uint64/int64/uint32/int32/enum/bool (sign-extended to 64 bits as MarshalVT does) followed by arbitrary bytes, returns exactly that value and consumes exactly the varint.",
 "every value of each integer type, every following byte string","2^64 values times arbitrary suffixes",[U+":decodeVarint",H+":EncodeVarint"])
p("C04","Zig-zag encoding is lossless and SizeOfZigzag is exact",
 "For every int32 and int64 x the zig-zag expression used by MarshalVT equals 2x for x>=0 and -2x-1 for x<0, the expression used by UnmarshalVT inverts it, and SizeOfZigzag(uint64(x)) is the varint length of that value for both the 32- and the 64-bit variant.",
 "every int32 and int64","2^64 values, sign-extension corner cases",[H+":SizeOfZigzag",M+":field",U+":fieldItem"])
p("C05","Skip only ever delimits complete wire records",
 "If Skip(b) returns n with no error and n <= len(b), then b[:n] is exactly one complete protobuf wire record (tag, then a payload of that wire type; groups are balanced and contain complete records).",
 "every byte string","arbitrary nesting of groups and arbitrary input bytes",[H+":Skip"])
p("C06","Skip accepts every complete wire record, independent of what follows",
 "For every complete wire record r (any field number, any wire type incl. nested groups) and every suffix s, Skip(r ++ s) returns len(r).",
 "every record, every nesting depth, every suffix","unbounded nesting and suffixes",[H+":Skip"])
p("C07","Skip is total: it terminates and never panics",
 "On every byte string Skip returns either a positive length or an error; it never indexes out of range and never loops.",
 "every byte string","all inputs; overflow of iNdEx near 2^63",[H+":Skip"])
p("C08","SizeVT is the exact encoded size",
 "For every message m of every schema for which MarshalVT succeeds, len(MarshalVT(m)) == SizeVT(m).",
 "every schema, every message value (any nesting), every map iteration order","the size code and the marshal code are generated by two independent generators over 18 kinds x 5 cardinalities; any disagreement on any value panics or corrupts output",[S+":field",S+":message",M+":field",M+":message"])
p("C09","MarshalToSizedBufferVT writes exactly the tail of the buffer",
 "For every buffer with len >= SizeVT(m), MarshalToSizedBufferVT never panics; on success it returns SizeVT(m), the last SizeVT(m) bytes hold the encoding and all earlier bytes are unchanged.",
 "every schema, message, buffer","frame property over all buffers",[M+":message",M+":field"])
p("C10","A too small buffer is never reported as success",
 "If len(dAtA) < SizeVT(m), MarshalToSizedBufferVT(dAtA) panics (or reports a missing required field); it never returns success.",
 "every schema, message, buffer","all sizes and all partial fills",[M+":message",M+":field","README.md"])
p("C11","MarshalToVT writes the encoding at the front and touches nothing else",
 "If the capacity of dAtA is at least SizeVT(m), MarshalToVT succeeds (or reports a missing required field), stores the encoding in dAtA[:SizeVT(m)] and leaves the rest unchanged; otherwise it panics.",
 "every schema, message, buffer","frame property over all buffers",[M+":message"])
p("C12","MarshalVT output is the protobuf wire encoding of the message",
 "The bytes produced by MarshalVT are the concatenation, in field-number order followed by the oneofs and then the unknown fields, of the wire-format encodings (as the protobuf encoding guide defines them) of exactly the populated fields.",
 "every schema and message","all kinds, cardinalities, nesting and values",[M+":field",M+":message"])
p("C13","MarshalVT fails exactly when a required field is unset",
 "MarshalVT returns an error iff some required field of the message, or of a message reached from it through populated fields, is unset; it then returns the error and never panics or returns bytes.",
 "every schema and message","requires considering every position in every message tree",[M+":field"])
p("C14","Strict marshalling emits fields in ascending field-number order",
 "The records MarshalVTStrict emits for the declared fields of a message are in non-decreasing field-number order (at every nesting level), followed by the unknown fields.",
 "every schema and message","all oneof/field number interleavings",[M+":message"])
p("C15","Strict and non-strict marshalling agree",
 "MarshalVT and MarshalVTStrict fail on the same messages; when they succeed both emit the encodings of exactly the same fields (up to the order of fields at every nesting level), the same number of bytes, and both decode to the same message.",
 "every schema and message","all oneof layouts",[M+":message"])
p("C16","Map iteration order never affects correctness",
 "For two runs that see the same message but range over its maps in different orders (at any depth), SizeVT is the same, MarshalVT produces encodings of the same length, and decoding either yields the same message.",
 "every message, every pair of map iteration orders","Go randomises map order at run time; n! orders per map",[S+":field",M+":field"])
p("C17","Nil receivers are safe",
 "On a nil message SizeVT returns 0, MarshalVT returns (nil, nil), MarshalToSizedBufferVT returns 0 without touching the buffer, CloneVT returns nil, and nil sub-messages in lists, maps and oneofs are encoded as empty messages.",
 "every schema and buffer, every position of a nil sub-message","all schemas and positions",[S+":message",M+":message",C+":body"])
p("C18","UnmarshalVT inverts MarshalVT",
 "For every message m (without groups) whose MarshalVT succeeds, unmarshalling the bytes into a zero message succeeds and yields m up to the documented normalisations: nil vs empty containers, nil sub-messages in containers become empty, negative zero in an implicit-presence float becomes zero, unknown fields dropped only if so configured.",
 "every schema, message value, map iteration order","unbounded recursive values over all kinds",[M+":message",U+":message",U+":field",U+":fieldItem"])
p("C19","UnmarshalVT is total on arbitrary input",
 "For every byte string (of length < 2^63) UnmarshalVT into a zero message returns nil or an error: no out-of-range access, no negative slice, no infinite loop.",
 "every schema and every byte string","all inputs; attacker controlled",[U+":message",U+":field",U+":fieldItem",U+":mapField"])
p("C20","UnmarshalVT decodes every conforming encoding as the protobuf spec says",
 "For any sequence of well-formed records in any order (known fields in packed or unpacked form, duplicate scalars, split sub-messages, repeated oneof members, unknown fields, non-minimal varints), UnmarshalVT succeeds with: last value wins for singular fields, append for repeated fields, merge for sub-messages, last member wins for oneofs, last entry wins for maps.",
 "every schema, every conforming byte string, every initial message","encoders other than vtproto choose the order and form; unbounded sequences",[U+":message",U+":fieldItem"])
p("C21","Concatenation is merge",
 "If UnmarshalVT accepts a (into m) giving m1, then UnmarshalVT on a++b into m behaves as UnmarshalVT on b into m1 (same message on success, error iff error), for messages without required fields.",
 "every schema, message m and byte strings a, b","pairs of arbitrary inputs",[U+":message"])
p("C22","Unknown fields survive a round trip verbatim",
 "Records whose field number is not declared are appended to the unknown fields byte for byte and in order, re-emitted verbatim at the end by MarshalVT, counted by SizeVT, compared by EqualVT and copied by CloneVT; with ignore_unknown_fields (or for wrapped well-known types) they are dropped instead and never emitted.",
 "every schema, every sequence of unknown records","arbitrary unknown data and interleavings",[U+":message",M+":message",S+":message",E+":message",C+":body"])
p("C23","Hostile length prefixes are rejected",
 "A string, bytes, message, map-entry or packed field whose declared length is negative as an int, overflows the index, or exceeds the remaining input makes UnmarshalVT return an error; it never reads past the input nor allocates for it.",
 "every schema, every length varint, every remaining input","2^64 lengths times all buffer positions, 64-bit wrap-around",[U+":fieldItem",U+":mapField",U+":field"])
p("C24","Truncated encodings are never silently accepted mid-record",
 "If UnmarshalVT accepts a proper prefix of MarshalVT(m), then the prefix ends at a top-level record boundary.",
 "every schema, message and cut position","every cut of every encoding",[U+":message",U+":fieldItem"])
p("C25","UnmarshalVT reports missing required fields",
 "UnmarshalVT returns an error whenever the input contains no record for one of the message's required fields.",
 "every schema (any number of required fields, incl. > 64) and every byte string","bitmask arithmetic over unboundedly many required fields",[U+":field",U+":message"])
p("C26","Oneof: at most one member, last one on the wire wins",
 "After UnmarshalVT the oneof holds the member whose record came last; if several consecutive records carry the same message-typed member they are merged.",
 "every schema with oneofs, every record sequence","unbounded sequences",[U+":fieldItem"])
p("C27","Group fields round-trip",
 "A populated proto2 group field written by MarshalVT is read back by UnmarshalVT.",
 "every schema with a singular group field","would need a proto2 group test in the suite; the claim is about all inputs",[U+":fieldItem (GroupKind)",M+":field (GroupKind)"])
p("C28","Extension fields do not disturb other fields",
 "When UnmarshalVT meets a record in a declared extension range, all fields decoded before it are kept.",
 "every schema with extension ranges, every record order","depends on record order",[U+":message (ExtensionRanges)"])
p("C29","Malformed input is rejected",
 "UnmarshalVT rejects (a) a packed field whose last element runs past the declared length, (b) a map entry whose key or value runs past the entry, (c) tags whose field number exceeds 2^29-1, (d) varints that overflow 64 bits, (e) a map key or value with the wrong wire type.",
 "every schema, every malformed record","infinitely many malformed inputs",[U+":field",U+":mapField",U+":decodeVarint"])
p("C30","Floating point values are preserved bit for bit",
 "Every float/double field, including NaN payloads and negative zero, is read back with the same bits that were written.",
 "every bit pattern of every float field in every position","2^64 bit patterns",[M+":field",S+":field",U+":fieldItem"])
p("C31","EqualVT is an equivalence relation on NaN-free messages",
 "EqualVT is symmetric and transitive on all messages and reflexive on messages without NaN, whatever pointers the two messages share.",
 "every schema, all pairs/triples of messages","triples of arbitrary trees, map orders",[E+":message",E+":field",E+":oneof"])
p("C32","EqualVT decides semantic equality",
 "EqualVT(a,b) is true iff a and b have the same presence and equal values for every field (lists element-wise, maps as finite maps, oneofs by member and value, nil sub-messages in containers equal to empty ones) and the same unknown bytes (when kept).",
 "every schema, all pairs of messages","pairs of arbitrary trees",[E+":message",E+":field",E+":compareScalar",E+":compareBytes",E+":compareCall"])
p("C33","Equal messages have equal encodings",
 "If EqualVT(a,b) then SizeVT(a) == SizeVT(b); and any message equal to m decodes-encodes alike.",
 "all pairs of messages","pairs of arbitrary trees",[E+":message",S+":message"])
p("C34","CloneVT returns an equal message",
 "CloneVT(m) has the same content as m: every field with the same presence and value, same unknown fields; hence SizeVT, MarshalVT agree, and EqualVT(m, CloneVT(m)) for NaN-free m. For pooled types this presumes that the pool hands out messages with the content of a new one (C36).",
 "every schema and message","arbitrary trees",[C+":body",C+":cloneField",C+":cloneFieldSingular",C+":bodyForOneOf"])
p("C35","CloneVT shares no mutable memory with the original",
 "No mutable object (message struct, slice backing array, map, pointed-to scalar, byte array) reachable from CloneVT(m) is reachable from m or existed before the call (other than in the message pools CloneVT draws from); hence any later mutation of one is invisible in the other; the original is unchanged.",
 "every schema, heap and message, every later mutation","aliasing over all heaps and mutation histories",[C+":cloneField",C+":cloneFieldSingular",C+":body"])
p("C36","Messages obtained from the pool are empty",
 "For every history of FromVTPool / UnmarshalVT / ReturnToVTPool calls, FromVTPool returns a message that is indistinguishable from a new one (SizeVT 0, EqualVT to the empty message, every presence bit clear).",
 "every pool history","unbounded histories; sync.Pool may return any earlier object or drop it",[PO+":message",G+":Alloc"])
p("C37","Unmarshalling into a recycled message equals unmarshalling into a new one",
 "For every pool history and every input, UnmarshalVT into a message from the pool gives the same result (same error or a message with the same content) as into a new message: no data from earlier uses leaks through retained slices or spare capacity.",
 "every pool history, every input","unbounded histories and inputs; leaks only show for specific capacity/length patterns",[PO+":message",U+":fieldItem (repeated, ShouldPool)",U+":field (packed, ShouldPool)"])
p("C38","UnmarshalVTUnsafe decodes the same values",
 "While the input buffer is unchanged, the message produced by UnmarshalVTUnsafe has the same content as the one produced by UnmarshalVT on the same bytes; string and bytes fields reference the input buffer exactly at the payload's position.",
 "every schema and input","all inputs",[U+":fieldItem",U+":mapField"])
p("C39","UnmarshalVT (safe) never aliases its input",
 "After UnmarshalVT the message shares no memory with the input buffer (unless it did before): overwriting the buffer in any way leaves the message unchanged, and UnmarshalVT does not modify the buffer.",
 "every schema, input, later overwrite","aliasing over all buffers and later writes",[U+":fieldItem (BytesKind)",U+":mapField"])
p("C40","Pool patterns match what the glob syntax says",
 "pattern.Match on patterns built from literal characters, '?' and single '*' returns true iff the name, read as UTF-8 characters, matches the pattern in the documented sense ('*' any run of non-separators, '?' one non-separator); a valid UTF-8 pattern without metacharacters matches only itself; Match always terminates without panicking, on every pattern and name.",
 "every pattern and name","all strings; backtracking matcher",[PA+":doMatchWithSeparator",GE+":ObjectSet.Contains"])
p("C41","A validated pattern never errors in Match",
 "ObjectSet.Contains ignores Match errors because Set already validated the pattern: if ValidatePattern(p) then Match(p, name) never returns ErrBadPattern.",
 "every valid pattern and name","all pattern/name pairs",[PA+":ValidatePattern",PA+":doMatchWithSeparator",GE+":ObjectSet.Contains"])
p("C42","Feature selection is order- and duplicate-insensitive",
 "findFeatures returns the requested registered features, each once, sorted by name, whatever order or multiplicity they are requested in; 'all' selects every registered feature; an unknown name (not preceded by 'all') is an error.",
 "every request list and registry","all permutations",[FE+":findFeatures"])
p("C43","Pooling decision precedence",
 "ShouldPool: a message matched by pool-exclude is never pooled; otherwise a message matched by pool is pooled; otherwise the mempool option decides; nil is never pooled.",
 "every configuration and message","all configurations",[G+":ShouldPool"])
p("C44","RPC codecs delegate faithfully",
 "The gRPC Codec's Marshal/Unmarshal return exactly what MarshalVT/UnmarshalVT return when the value has the helpers and an error (not a panic) otherwise; Marshal followed by Unmarshal gives back an equal message.",
 "every value","all dynamic types",["codec/grpc/grpc_codec.go","codec/drpc/drpc_codec.go"])
p("C45","Re-encoding is stable",
 "For every input b accepted by UnmarshalVT giving m, MarshalVT(m) succeeds and UnmarshalVT of the result gives a message with the same content as m.",
 "every schema and accepted byte string","all accepted inputs",[U+":message",M+":message"])
p("C46","KeySize agrees with the emitted key bytes",
 "KeySize(num, wireType) is the number of key bytes the marshaller emits, which are the canonical varint of num<<3|wireType.",
 "every field number and wire type","2^29 x 6 combinations",[HE+":KeySize",M+":encodeKey"])
p("C47","Sub-messages without vtproto helpers merge too",
 "A singular sub-message field whose type has no vtproto helpers and whose record appears twice is merged like any other sub-message.",
 "every schema with foreign sub-messages","depends on record repetition and on package layout",[U+":decodeMessage"])
p("C48","Nesting is bounded",
 "UnmarshalVT rejects inputs nested beyond a fixed depth (so that stack use is bounded independently of the input).",
 "every depth","unbounded depth",[U+":decodeMessage"])
p("C49","Returning a message to the pool never panics",
 "ResetVT and ReturnToVTPool run to completion on every message (nil included), whatever its fields hold.",
 "every schema and message","arbitrary trees",[PO+":message"])
p("C50","Pool patterns match what the full glob syntax says",
 "For every pattern, with classes, alternatives, '**' and escapes: pattern.Match returns true iff the name matches the pattern in the documented sense.",
 "every pattern and name","all strings; backtracking matcher",[PA+":doMatchWithSeparator",PA+":doMatchAlts"])
p("C51","Every generated gRPC stub reaches its own method",
 "For every service whose methods have distinct names, the call a generated client stub makes is dispatched, through the generated service descriptor, to the server method of the same name; it is a unary call iff the method is unary, and a streaming stub passes the stream description (name, directions) of its own method.",
 "every service, any mix of unary and streaming methods","all method lists; index arithmetic depends on the mix",["features/grpc/grpc.go:genService","features/grpc/grpc.go:genClientMethod","features/grpc/grpc.go:genServerMethod"])
p("C52","Older programs pass on what they do not know",
 "A program built before fields were added to a schema (at any depth; not required, not in a oneof that existed before) accepts what a newer program accepts, and when it marshals the message again the newer program reads the same content as from the original bytes. (Up to the sign of zero in fields without presence; no map entry without value may stand for a message with required fields, see C30 and C45.)",
 "every pair of schema versions and every conforming byte string","all schema pairs, record orders and nestings; a rolling upgrade meets them all",[U+":message",M+":message",U+":fieldItem"])
p("C53","Decoding and pooling touch no foreign memory",
 "UnmarshalVT and ReturnToVTPool, however they end, change only memory reachable from their message or from the pools, and do not make other memory reachable from them. A program that decodes with UnmarshalVTUnsafe only never changes any of its input buffers, however it reuses messages and pools.",
 "every schema, memory, input, history of calls","aliasing between messages, buffers and spare capacity over all histories; an overwritten buffer shows up elsewhere and later",[U+":fieldItem (BytesKind)",U+":message",PO+":message"])
p("C54","What decoding does depends on content only, not on memory layout",
 "UnmarshalVT or UnmarshalVTUnsafe into a message whose parts share no memory never panics. Whether it fails and with which error, and the content of the message afterwards if it does not, depend only on the content of the message and on the input bytes: not on which of the two is called, on addresses, capacities, old data in spare capacity or on how append grows slices; and afterwards the parts of the message again share no memory.",
 "every schema, memory, receiver and input","slices with spare capacity, shared backing arrays and growth policies multiply beyond any test suite",[U+":fieldItem",U+":mapField",U+":message"])
p("C55","A program that uses pools computes what it would compute without them",
 "Take any program that obtains messages from the pools or makes them, unmarshals parts of its buffers into them, overwrites the buffers, assigns members, clones messages, resets them, returns them to the pools (and does not use them afterwards) or drops them, in any order; and let sync.Pool hand out and drop objects as it likes. Nothing panics, every call returns the error (or none) it would return in a program without pools that works on values, and at the end each message the program holds has the content, size and encoding it would have there; no two messages share memory, and none shares memory with a buffer or an object in a pool.",
 "every schema, program, sequence of choices of sync.Pool and growth policy of append","the number of interleavings of returning, reusing and decoding is unbounded, and what pools do is not under a test's control",[PO+":message",U+":fieldItem",U+":mapField",U+":message",G+":Alloc",C+":message"])
KN="types/known"
p("C56","The helpers shipped for the well-known types are what the generator would produce, and can be relied on",
 "For Timestamp, Duration, Empty, Any, FieldMask, the nine wrappers, Struct, Value and ListValue, the shipped SizeVT, MarshalVT, MarshalToVT, MarshalToSizedBufferVT (and their Strict variants), UnmarshalVT, EqualVT and CloneVT return and leave behind what the generator's code for their descriptors would. So every well-typed value marshals to SizeVT bytes which decode to an equal value, decoding never panics, and clones have the same content; a Timestamp, Duration, or integer, boolean or string wrapper comes back exactly.",
 "every value, buffer and input of each of these types; every nesting of Struct, Value and ListValue","all 64-bit contents and all nestings; the shipped files are edited by hand or regenerated on another schedule than the generator",[KN+"/timestamppb/timestamp_vtproto.pb.go",KN+"/durationpb/duration_vtproto.pb.go",KN+"/emptypb/empty_vtproto.pb.go",KN+"/anypb/any_vtproto.pb.go",KN+"/fieldmaskpb/field_mask_vtproto.pb.go",KN+"/wrapperspb/wrappers_vtproto.pb.go",KN+"/structpb/struct_vtproto.pb.go"])
p("C57","Goroutines that share the pools do not disturb each other",
 "Let any number of goroutines each run a program as in C55 on messages and buffers of their own, sharing only the pools; let them hand messages and buffers to each other; and let the scheduler run their operations in any order. Nothing panics, every call in every goroutine ends as it does without pools, and the messages have the content they would have. A goroutine to which nothing is handed over gets the results it would get if it ran alone. While one runs an operation, no object of another's message and no buffer of another changes; no two messages share memory.",
 "every schema, number of goroutines, program of each, schedule of their operations and sequence of choices of sync.Pool","schedules are unbounded in number and not under a test's control",[PO+":message",U+":message",G+":Alloc"])
p("C58","Decoding takes memory in proportion to its input",
 "However malformed the input, the memory a message occupies after UnmarshalVT or UnmarshalVTUnsafe, successful or not, exceeds what it occupied before by at most a constant per byte of input; the constant depends only on the number of members of the message types. In particular a short input cannot make a large message.",
 "every schema, receiver and byte sequence","inputs are chosen by an adversary; the worst case needs a particular input",[U+":mapField",U+":fieldItem",U+":message",KN+"/structpb/struct_vtproto.pb.go"])
p("C59","The SizeVT code the generator prints computes the size",
 "For every schema, the Go statements the generator prints for SizeVT - of messages and of the wrappers of oneof members, calling each other or proto.Size - run without panic and without int overflow on every value, nil included, and return exactly the number of bytes MarshalVT produces, as long as that number is an int64. The statements are those of the SizeVT methods in the generated files that ship with the project.",
 "every schema, choice of types with helpers, and message value","the text depends on the schema: each test covers the code printed for one schema, and only the values it tries",[S+":messageSize",S+":field",S+":message",KN+"/structpb/struct_vtproto.pb.go","testproto","conformance/internal/conformance"])
p("C60","The marshalling code the generator prints writes the encoding",
 "For every schema, the Go statements the generator prints for MarshalVT, MarshalToVT, MarshalToSizedBufferVT and their Strict variants - of messages and of the wrappers of oneof members, calling each other or proto.Marshal - run on every value, nil included, without panic and without int overflow when the buffer is large enough, and return what C08-C15 say: the bytes of the encoding and their number, or the error for a missing required field. MarshalToVT panics exactly when the capacity of the slice is smaller than the size. The statements are those of the methods in the generated files that ship with the project.",
 "every schema, choice of types with helpers, message value and buffer","the text depends on the schema: each test covers the code printed for one schema, and only the values it tries",[M+":message",M+":field",M+":mapField",M+":encodeKey",M+":marshalBackward",M+":marshalBackwardSize",KN+"/structpb/struct_vtproto.pb.go","testproto","conformance/internal/conformance"])
p("C61","The unmarshalling code the generator prints decodes",
 "For every schema, the Go statements the generator prints for UnmarshalVT and UnmarshalVTUnsafe - with or without pools, calling each other or proto.Unmarshal - run on every input and every receiver without panic and without looping for ever, and end as C19-C30 and C37-C38 say: they return nil and leave the decoded message, or return the error. What the printed MarshalVT returns is read back by the printed UnmarshalVT as an equal message. The statements are those of the methods in the generated files that ship with the project.",
 "every schema, choice of types with helpers and pools, history of the pools, input, receiver and capacity left by make","the text depends on the schema: each test covers the code printed for one schema, and only the inputs it tries",[U+":message",U+":field",U+":fieldItem",U+":mapField",U+":decodeVarint",U+":decodeFixed64",U+":noStarOrSliceType",KN+"/structpb/struct_vtproto.pb.go","testproto","conformance/internal/conformance"])
p("C62","The EqualVT code the generator prints compares contents",
 "For every schema, the Go statements the generator prints for EqualVT and EqualMessageVT run on every two messages - nil or not, sharing pointers or not - without panic, and return true exactly when both are nil or both have the same content (C32, C33). EqualMessageVT returns false for a message of another type and for a nil interface. The statements are those of the methods in the generated files that ship with the project.",
 "every schema, choice of types with helpers, pair of messages and set of shared pointers","the text depends on the schema: each test covers the code printed for one schema, and only the pairs it tries",[E+":message",E+":oneof",E+":field",E+":compareScalar",E+":compareBytes",E+":compareCall",KN+"/structpb/struct_vtproto.pb.go","testproto","conformance/internal/conformance"])
p("C63","The CloneVT code the generator prints copies the message and shares nothing with it",
 "For every schema, the Go statements the generator prints for CloneVT and CloneMessageVT run on every message, nil or not, without panic and without storing in the clone any pointer, slice or map found in the original. The result has the content of the original (C34), and the printed EqualVT finds the two equal if the original holds no NaN. With pools this holds whatever cleared objects the pools return. The statements are those of the methods in the generated files that ship with the project.",
 "every schema, choice of types with helpers, message and choice of recycled objects","the text depends on the schema: each test covers the code printed for one schema and the messages it tries; memory shared with the original shows only after a later write",[C+":body",C+":bodyForOneOf",C+":cloneOneofField",C+":cloneFieldSingular",C+":cloneField",C+":processMessage",KN+"/structpb/struct_vtproto.pb.go","testproto","conformance/internal/conformance"])
p("C64","The pool code the generator prints clears what it recycles",
 "For every schema, the Go statements the generator prints for ResetVT and ReturnToVTPool run to completion on every message (unless a list of messages without pool contains nil, C49). Whatever a program that runs the printed ResetVT, ReturnToVTPool, CloneVT and UnmarshalVT code has done before, a message taken from a pool holds no content of its former life, neither in its fields nor in the storage behind its lists, and unmarshalling into it succeeds or fails like unmarshalling into a new message. The storage of lists of strings and byte slices keeps no reference to old data. The statements are those in the generated files that ship with the project.",
 "every schema, message and history of pool operations","the text depends on the schema, and what a recycled object remembers depends on the whole history of the program",[PO+":message",C+":body",U+":message","testproto/pool","testproto/grpc"])
p("C65","The helper functions every generated file calls, as the code they are",
 "Run by the rules of Go's fixed-size integers, the statements of SizeOfVarint, SizeOfZigzag, EncodeVarint and Skip (and of the generator's KeySize) do what their users expect on every input: the sizes are those of the varints; EncodeVarint stores the varint before the given offset, changes nothing else and panics exactly if it does not fit; Skip ends on every input without panic, returns the length of the record at the start of the input whenever there is one, and a zero length with every error. No overflow, shift count or conversion breaks this. The statements are those of the files.",
 "every 64-bit number, buffer, offset and byte string shorter than 2^63-8","the functions are loops over 64-bit numbers and arbitrary bytes: their inputs cannot be enumerated",[H+":EncodeVarint",H+":SizeOfVarint",H+":SizeOfZigzag",H+":Skip","generator/helpers.go:KeySize"])
p("C66","The generated gRPC stubs carry calls and messages from client to server and back",
 "For the code printed for a service: calling a unary method of the generated client leads to exactly one call of the server's own implementation of that method, with a request equal to the caller's, whether the messages the stubs make are new or recycled from a pool; the caller gets a message equal to the one the implementation returned, or nil and its error; a request that cannot be marshalled reaches no server, and a request that cannot be decoded reaches no implementation. An interceptor sees the method's full name and the decoded request, and one that only calls the handler changes nothing. A streaming method opens a stream of its own kind under its own path, sends the single request if there is one, and the handler passes it on; however Send, Recv, CloseAndRecv of the two sides are interleaved, each side receives the messages of the other in order, none lost or repeated. Methods not implemented return nil and an error. The printed text is that of the generated files.",
 "every service, method, request, server implementation, pool state, interceptor and interleaving of stream operations","the stubs must behave for every service definition, server and schedule; tests call one method of one service",["features/grpc/grpc.go:genService","features/grpc/grpc.go:genClientMethod","features/grpc/grpc.go:genServerMethod","generator/generatedfile.go:Alloc","codec/grpc/grpc_codec.go:Codec","testproto/grpc/grpc_vtproto.pb.go"])
p("C67","The stubs of a file declare every name once",
 "The handlers and stream types the generator declares for the methods of the services of a file have different names, whatever the services and methods are called.",
 "every file with services and methods of distinct names","the names are put together from service and method names; tests cannot try all combinations",["features/grpc/grpc.go:genServerMethod","features/grpc/grpc.go:genClientMethod","features/grpc/grpc.go:unexport"])
p("C68","The Go compiler accepts the generated SizeVT and marshal methods",
 "The methods SizeVT, MarshalVT, MarshalToVT and MarshalToSizedBufferVT (and the Strict ones) printed for a message and for the wrappers of its oneofs obey Go's static rules: every expression is well typed against the struct types protoc-gen-go declares, methods that are called are declared for their receiver, no variable is unused or declared twice in a block, type switches have distinct and possible cases, functions end in a return.",
 "every schema without groups in lists and oneofs, every message, with and without the option wrap (for well-known types), both orders of oneofs","a user's schema is compiled for the first time at the user's; tests compile the schemas of the repository only",["features/size/size.go","features/marshal/marshalto.go","generator/generatedfile.go:FieldGoType","generator/generatedfile.go:IsLocalMessage"])
p("C69","The generated code compiles whatever the schema and the options",
 "For every schema protoc accepts, every selection of features and every setting of the option wrap, the printed SizeVT and marshal methods compile.",
 "every schema, selection of features and value of wrap","options and schemas multiply; tests compile a few combinations",["features/size/size.go:messageSize","features/marshal/marshalto.go:message","generator/generator.go:generateFile"])
p("C70","A run of the plugin writes the documented code for the requested files, each name once",
 "For every request and selection of features, the plugin writes one file NAME_vtproto.pb.go for each requested file and none for imported ones; it leaves a file out exactly when no selected feature has anything to do and allow-empty is off; the file declares exactly the documented methods of the selected features, for every message at any nesting depth except map entries and for every member of a oneof, and the pool functions of the pooled messages; nothing is declared twice in the run; the result does not depend on the order of Go's maps; the plugin panics only for a member of a oneof of a well-known type that it does not know.",
 "every set of files, nesting of messages, selection of features, options, order of map iteration","tests run the plugin on a fixed set of files with fixed options",["generator/generator.go:Generate","generator/generator.go:generateFile","generator/generatedfile.go:WellKnownFieldMap","cmd/protoc-gen-go-vtproto/main.go:main","features/size/size.go:GenerateFile"])
p("C71","The code of a run refers only to methods and functions that exist",
 "For every request, every method and function of generated code that the printed code names (on messages of the run, on well-known types, on pools) is declared in a file of the same run or in the packages shipped under types/known.",
 "every set of files, references between messages, selection of features, options","it is a property of all files of a run together and of how files refer to each other across packages",["generator/generatedfile.go:IsLocalMessage","generator/generatedfile.go:WellKnownTypeMap","generator/generatedfile.go:Alloc","generator/generator.go:NewGenerator"])
p("C72","With the option wrap, every method has a receiver type that is declared",
 "For every file generated with the option wrap, the type of every printed method is one of the wrapper types that the file declares.",
 "every set of files and selection of features","the option is used for the well-known types only, which have no messages inside messages",["generator/generator.go:generateFile","features/size/size.go:message","generator/generatedfile.go:Wrapper"])
p("C73","The Go compiler accepts the generated UnmarshalVT and UnmarshalVTUnsafe",
 "The methods UnmarshalVT and UnmarshalVTUnsafe printed for a message obey Go's static rules: every expression is well typed against the struct types protoc-gen-go declares, constants fit the types they are used with, methods and pool functions that are called are declared, no variable is unused or declared twice in a block, the cases of the switch are distinct constants of its type, break is inside a loop or switch, the function ends in a return.",
 "every schema without groups in lists and oneofs, every message, any number of fields, required fields and ranges of extensions, every set of pooled messages and of fields with the option unique, with and without the option wrap (for well-known types)","a user's schema is compiled for the first time at the user's; tests compile the schemas of the repository only",["features/unmarshal/unmarshal.go:message","features/unmarshal/unmarshal.go:field","features/unmarshal/unmarshal.go:fieldItem","features/unmarshal/unmarshal.go:mapField","features/unmarshal/unmarshal.go:decodeMessage"])
p("C74","The generated UnmarshalVT compiles whatever the schema and the options",
 "For every schema protoc accepts, every selection of features and every setting of the option wrap, the printed UnmarshalVT compiles.",
 "every schema, selection of features and value of wrap","options and schemas multiply; tests compile a few combinations",["features/unmarshal/unmarshal.go:fieldItem","features/unmarshal/unmarshal.go:message","generator/generatedfile.go:Alloc"])
p("C75","Different messages have different encodings",
 "If MarshalVT (or MarshalVTStrict) returns the same bytes for two messages of a type, the messages have the same content: EqualVT is true of them, and with NaNs their contents agree bit by bit. Hashes, signatures and cache keys computed from the bytes do not confuse messages.",
 "every schema, all pairs of well-typed messages that UnmarshalVT can decode again, both orders of fields","it speaks of all pairs of messages; tests compare a few",["features/marshal/marshalto.go:message","features/equal/equal.go:message","features/unmarshal/unmarshal.go:message"])
p("C76","The Go compiler accepts the generated ResetVT and ReturnToVTPool",
 "The methods ResetVT and ReturnToVTPool printed for a pooled message obey Go's static rules: the members they range over, clear and slice have such types, the variables that keep slices are declared once, read, and assigned back to members of their type, oneof wrappers belong to the oneof, and every method that is called exists. This needs the pooled messages it refers to to be generated with the feature pool; without that the code does not compile.",
 "every schema, every pooled message, any number and order of fields, every set of pooled messages","a user's schema is compiled for the first time at the user's; tests compile the schemas of the repository only",["features/pool/pool.go:message","generator/generatedfile.go:ShouldPool"])
p("C77","The Go compiler accepts the generated EqualVT and EqualMessageVT",
 "The methods EqualVT and EqualMessageVT printed for a message and the wrappers of its oneofs obey Go's static rules: operands of == and != have one comparable type, pointers and slices only are compared with nil, every type assertion is possible, the interfaces asserted name the type of the field, methods that are called exist and get an argument of their type, no variable is unused or declared twice in a block, and every path returns.",
 "every schema, every message, any number of fields and oneofs, every choice of local, well-known and other packages, with and without the option wrap (for well-known types)","a user's schema is compiled for the first time at the user's; tests compile the schemas of the repository only",["features/equal/equal.go:message","features/equal/equal.go:field","features/equal/equal.go:oneof","features/equal/equal.go:compareCall"])
p("C78","The Go compiler accepts the generated CloneVT and CloneMessageVT",
 "The methods CloneVT and CloneMessageVT printed for a message and the wrappers of its oneofs obey Go's static rules: what is assigned has the type of the member, containers are made with the types of the field, interfaces asserted name the type of the field, methods and pool functions that are called exist, no variable is unused or declared twice in a block, and every path returns a value of the result type. A message with a pool needs the feature pool; without that the code does not compile.",
 "every schema, every message, any number of fields and oneofs, every choice of local, well-known and other packages, with and without the option wrap (for well-known types), with and without pools","a user's schema is compiled for the first time at the user's; tests compile the schemas of the repository only",["features/clone/clone.go:body","features/clone/clone.go:bodyForOneOf","features/clone/clone.go:cloneField","features/clone/clone.go:cloneFieldSingular","features/clone/clone.go:cloneOneofField"])
p("C79","The Go compiler accepts the generated RPC stubs",
 "The functions, interfaces and structs printed for a method of a service obey Go's static rules: the client's method uses parameters it has, the stream objects have the methods of the interfaces they are returned and passed as, handlers call the service's method with arguments of its types, results match, no variable is unused or declared twice, and every path returns. The printed text is the text of these declarations.",
 "every service, every method (unary, streaming on either side or both), every pair of message types, every package that declares the service","a user's service is compiled for the first time at the user's; the repository's test compiles two unary methods and no streaming one",["features/grpc/grpc.go:genClientMethod","features/grpc/grpc.go:genServerMethod","features/grpc/grpc.go:clientSignature","features/grpc/grpc.go:serverSignature"])
with open("/verif/properties.jsonl","w") as f:
    for x in P: f.write(json.dumps(x)+"\n")
print(len(P))
