{
 "claims": [
  {
   "property": "C01",
   "status": "proved",
   "theorems": [
    "C01_SizeOfVarint"
   ],
   "note": ""
  },
  {
   "property": "C02",
   "status": "proved",
   "theorems": [
    "C02_EncodeVarint",
    "C02_varint_canonical"
   ],
   "note": ""
  },
  {
   "property": "C03",
   "status": "proved",
   "theorems": [
    "C03_varint_roundtrip",
    "C03_varint_any"
   ],
   "note": ""
  },
  {
   "property": "C04",
   "status": "proved",
   "theorems": [
    "C04_zigzag64",
    "C04_zigzag32",
    "C04_sint_roundtrip"
   ],
   "note": ""
  },
  {
   "property": "C05",
   "status": "proved",
   "theorems": [
    "C05_Skip_sound",
    "C05_group_number_refuted"
   ],
   "note": "C05_Skip_sound proves the claim: one record whose groups are balanced. The numbers of end-group tags are not checked by the code; C05_group_number_refuted is the witness."
  },
  {
   "property": "C06",
   "status": "proved",
   "theorems": [
    "C06_Skip_complete"
   ],
   "note": ""
  },
  {
   "property": "C07",
   "status": "proved",
   "theorems": [
    "C07_Skip_total"
   ],
   "note": ""
  },
  {
   "property": "C08",
   "status": "proved",
   "theorems": [
    "C08_size_exact"
   ],
   "note": ""
  },
  {
   "property": "C09",
   "status": "proved",
   "theorems": [
    "C09_sized_buffer"
   ],
   "note": ""
  },
  {
   "property": "C10",
   "status": "proved",
   "theorems": [
    "C10_short_buffer"
   ],
   "note": ""
  },
  {
   "property": "C11",
   "status": "proved",
   "theorems": [
    "C11_marshal_to"
   ],
   "note": ""
  },
  {
   "property": "C12",
   "status": "proved",
   "theorems": [
    "C12_wire_encoding"
   ],
   "note": ""
  },
  {
   "property": "C13",
   "status": "proved",
   "theorems": [
    "C13_required"
   ],
   "note": ""
  },
  {
   "property": "C14",
   "status": "proved",
   "theorems": [
    "C14_strict_order"
   ],
   "note": ""
  },
  {
   "property": "C15",
   "status": "proved",
   "theorems": [
    "C15_strict_agrees",
    "C15_same_message"
   ],
   "note": ""
  },
  {
   "property": "C16",
   "status": "proved",
   "theorems": [
    "C16_map_order",
    "C16_same_message"
   ],
   "note": ""
  },
  {
   "property": "C17",
   "status": "proved",
   "theorems": [
    "C17_nil_receiver",
    "C17_nil_sub"
   ],
   "note": ""
  },
  {
   "property": "C18",
   "status": "partial",
   "theorems": [
    "C18_equal",
    "C18_round_trip",
    "C18_nil_required_refuted"
   ],
   "note": "C18_round_trip proves the claim for messages meeting `decodable`; C18_nil_required_refuted shows that without its first clause (nil standing for a message with required fields) the claim is false of the code."
  },
  {
   "property": "C19",
   "status": "partial",
   "theorems": [
    "C19_total",
    "C19_nil_member_refuted"
   ],
   "note": "C19_total proves the claim for every receiver that holds no oneof wrapper around a nil message; for such a receiver UnmarshalVT panics (C19_nil_member_refuted)."
  },
  {
   "property": "C20",
   "status": "partial",
   "theorems": [
    "C20_entry_value_twice_refuted",
    "C20_decodes"
   ],
   "note": "C20_decodes proves the claim for input in which map entries give key and value at most once; a repeated value is or-ed into the first one (C20_entry_value_twice_refuted)."
  },
  {
   "property": "C21",
   "status": "partial",
   "theorems": [
    "C21_concat",
    "C21_required_refuted"
   ],
   "note": "C21_concat proves the claim up to the check of required fields; every call checks its own input only (C21_required_refuted)."
  },
  {
   "property": "C22",
   "status": "proved",
   "theorems": [
    "C22_cloned",
    "C22_compared",
    "C22_unknown_kept",
    "C22_emitted",
    "C22_verbatim"
   ],
   "note": ""
  },
  {
   "property": "C23",
   "status": "proved",
   "theorems": [
    "C23_hostile_length",
    "C23_nested"
   ],
   "note": ""
  },
  {
   "property": "C24",
   "status": "proved",
   "theorems": [
    "C24_truncated",
    "C24_marshalled"
   ],
   "note": ""
  },
  {
   "property": "C25",
   "status": "partial",
   "theorems": [
    "C25_conforming",
    "C25_any_input_partial",
    "C25_set",
    "C25_refuted"
   ],
   "note": "C25_conforming and C25_set prove the claim for conforming input; C25_any_input_partial for any input split the way UnmarshalVT splits it; C25_refuted: packed fields that overrun their length."
  },
  {
   "property": "C26",
   "status": "proved",
   "theorems": [
    "C26_last_wins",
    "C26_merge"
   ],
   "note": ""
  },
  {
   "property": "C27",
   "status": "partial",
   "theorems": [
    "C27_group_rejected",
    "C27_refuted"
   ],
   "note": "The generated group loop tests the wrong tag: every group is rejected (C27_group_rejected), so the claim is false (C27_refuted)."
  },
  {
   "property": "C28",
   "status": "partial",
   "theorems": [
    "C28_refuted"
   ],
   "note": "proto.UnmarshalMerge's counterpart used by the generated code resets the message: C28_refuted."
  },
  {
   "property": "C29",
   "status": "partial",
   "theorems": [
    "C29_bad_tag_partial",
    "C29_packed_overrun_refuted",
    "C29_map_overrun_refuted",
    "C29_field_number_refuted",
    "C29_varint_overflow_refuted",
    "C29_entry_wire_type_refuted"
   ],
   "note": "C29_bad_tag_partial proves the part that holds (field number zero, end-group tags, wrong wire types of declared fields); five witnesses refute the rest."
  },
  {
   "property": "C30",
   "status": "partial",
   "theorems": [
    "C30_bits",
    "C30_negative_zero_refuted"
   ],
   "note": "C30_bits proves the claim for every position except negative zero in a field without presence, which is dropped (C30_negative_zero_refuted)."
  },
  {
   "property": "C31",
   "status": "proved",
   "theorems": [
    "C31_symmetric",
    "C31_transitive",
    "C31_reflexive",
    "C31_same_pointer"
   ],
   "note": ""
  },
  {
   "property": "C32",
   "status": "proved",
   "theorems": [
    "C32_decides",
    "C32_separate",
    "C32_any"
   ],
   "note": ""
  },
  {
   "property": "C33",
   "status": "proved",
   "theorems": [
    "C33_same_size",
    "C33_decode_alike"
   ],
   "note": ""
  },
  {
   "property": "C34",
   "status": "proved",
   "theorems": [
    "C34_same_content",
    "C34_nil",
    "C34_same_bytes",
    "C34_equal"
   ],
   "note": ""
  },
  {
   "property": "C35",
   "status": "proved",
   "theorems": [
    "C35_fresh",
    "C35_new",
    "C35_unchanged",
    "C35_original",
    "C35_clone",
    "C35_content",
    "C35_unsafe_string_refuted"
   ],
   "note": "C35_fresh, C35_unchanged, C35_original and C35_clone prove the claim on a model of memory, pools included; C35_content (pools empty): the memory made holds the tree C34 is about. Strings made by UnmarshalVTUnsafe are outside the claim (they are not memory of the message): their clones still alias the buffer (C35_unsafe_string_refuted)."
  },
  {
   "property": "C36",
   "status": "partial",
   "theorems": [
    "C36_emptied",
    "C36_like_new_partial",
    "C36_clone_partial",
    "C36_optional_bytes_refuted"
   ],
   "note": "C36_emptied holds for all schemas; C36_like_new_partial and C36_clone_partial need that no pooled message has a bytes field with presence. For such a field ResetVT leaves an empty non-nil slice, so a recycled message has it set (C36_optional_bytes_refuted)."
  },
  {
   "property": "C37",
   "status": "partial",
   "theorems": [
    "C37_same_error",
    "C37_same_result_partial",
    "C37_after_reset_partial",
    "C37_spare_capacity_partial",
    "C37_resliced_refuted"
   ],
   "note": "C37_same_error holds for all schemas; same content (C37_same_result_partial, C37_after_reset_partial, C37_spare_capacity_partial) needs that no pooled message has a bytes field with presence, and that the program leaves no junk in spare capacity: a list shortened by reslicing leaks into later messages (C37_resliced_refuted). Programs that keep using a message after returning it are not modelled."
  },
  {
   "property": "C38",
   "status": "proved",
   "theorems": [
    "C38_same_content",
    "C38_no_copies",
    "C38_pooled_partial"
   ],
   "note": "C38_same_content (every input and receiver, sub-messages newly allocated) and C38_no_copies prove the claim; C38_pooled_partial extends it to sub-messages drawn from the pools, for pooled messages without bytes fields with presence."
  },
  {
   "property": "C39",
   "status": "proved",
   "theorems": [
    "C39_touches",
    "C39_buffer",
    "C39_no_alias"
   ],
   "note": "C39_touches and C39_buffer prove the claim on a model of memory (HeapDec.v) for every memory, receiver and outcome; C39_no_alias on trees."
  },
  {
   "property": "C40",
   "status": "proved",
   "theorems": [
    "C40_total",
    "C40_wild",
    "C40_self",
    "C40_not_utf8_refuted"
   ],
   "note": "C40_total, C40_wild and C40_self prove the claim. Bytes that are not UTF-8 all read as the replacement character, so without the UTF-8 condition a pattern may match another name (C40_not_utf8_refuted)."
  },
  {
   "property": "C41",
   "status": "partial",
   "theorems": [
    "C41_no_error_partial",
    "C41_refuted",
    "C41_class_refuted"
   ],
   "note": "C41_no_error_partial: valid patterns with no unescaped brace, comma or '[' inside a class. C41_refuted and C41_class_refuted: the scanner for alternatives does not know classes, so such a pattern may pass validation and fail in Match."
  },
  {
   "property": "C42",
   "status": "proved",
   "theorems": [
    "C42_selected",
    "C42_unknown",
    "C42_order"
   ],
   "note": ""
  },
  {
   "property": "C43",
   "status": "proved",
   "theorems": [
    "C43_precedence",
    "C43_nil",
    "C43_ignore_unknown",
    "C43_literal",
    "C43_flags"
   ],
   "note": ""
  },
  {
   "property": "C44",
   "status": "proved",
   "theorems": [
    "C44_delegates",
    "C44_no_panic",
    "C44_missing_helpers",
    "C44_round_trip",
    "C44_drpc_refuted"
   ],
   "note": "C44_drpc_refuted is about the dRPC functions, which the claim does not cover: they panic on values without helpers."
  },
  {
   "property": "C45",
   "status": "partial",
   "theorems": [
    "C45_reencode",
    "C45_entry_without_value_refuted"
   ],
   "note": "C45_reencode proves the claim for decoded messages that are `settled`; C45_entry_without_value_refuted: a map entry without value leaves nil behind, which does not survive if its type has required fields."
  },
  {
   "property": "C46",
   "status": "proved",
   "theorems": [
    "C46_KeySize"
   ],
   "note": ""
  },
  {
   "property": "C47",
   "status": "partial",
   "theorems": [
    "C47_reset",
    "C47_refuted"
   ],
   "note": "C47_reset states what the code does; C47_refuted: sub-messages without helpers are replaced instead of merged."
  },
  {
   "property": "C48",
   "status": "partial",
   "theorems": [
    "C48_unbounded_refuted"
   ],
   "note": "No nesting limit: C48_unbounded_refuted."
  },
  {
   "property": "C49",
   "status": "partial",
   "theorems": [
    "C49_no_panic_partial",
    "C49_nil_element_refuted"
   ],
   "note": "C49_no_panic_partial: for messages without nil in lists of unpooled messages; C49_nil_element_refuted shows that this is needed."
  },
  {
   "property": "C50",
   "status": "partial",
   "theorems": [
    "C50_sound",
    "C50_complete_partial",
    "C50_class_refuted",
    "C50_end_refuted",
    "C50_dirs_refuted",
    "C50_brace_refuted"
   ],
   "note": "C50_sound: every pattern, a match is justified by the documented syntax. C50_complete_partial: the converse for patterns in which every alternative and '**' is followed in a way the matcher backtracks over. Four witnesses show where the code misses matches."
  },
  {
   "property": "C51",
   "status": "proved",
   "theorems": [
    "C51_stubs"
   ],
   "note": ""
  },
  {
   "property": "C52",
   "status": "proved",
   "theorems": [
    "C52_older_reader",
    "C52_older_reader_plain",
    "C52_added_member_refuted"
   ],
   "note": "C52_older_reader holds for decoded messages without nil messages that stand for ones with required fields (`sound`); C52_older_reader_plain: nothing is asked if there are no required fields and every message type has helpers. -0.0 in a field without presence may become 0 (C30). The oneof restriction is needed: C52_added_member_refuted."
  },
  {
   "property": "C53",
   "status": "proved",
   "theorems": [
    "C53_return",
    "C53_unsafe_keeps",
    "C53_mixed_refuted",
    "C53_pool_refuted"
   ],
   "note": "C39_touches (UnmarshalVT), C53_return and C53_unsafe_keeps prove the claim. Mixing the two decoders is outside the claim: UnmarshalVT into a message that UnmarshalVTUnsafe filled overwrites the first buffer (C53_mixed_refuted), also through the pools (C53_pool_refuted)."
  },
  {
   "property": "C54",
   "status": "proved",
   "theorems": [
    "C54_memory",
    "C54_no_panic",
    "C54_layout",
    "C54_shared_refuted"
   ],
   "note": "C54_memory relates the memory model to UnmarshalVT on trees, so that the decoding theorems (C18-C30, C45, C52) hold of memory as well; C54_layout and C54_no_panic are the claim. Both decoders, UnmarshalVT and UnmarshalVTUnsafe, are covered. Assumed: empty pools, no message waiting in the spare capacity of a list if some type is pooled, and the contracts up_owns of the upstream decoders. When a call fails, an empty list may stand where the tree has nil (left_empty). Parts that share memory are excluded for a reason: C54_shared_refuted."
  },
  {
   "property": "C55",
   "status": "partial",
   "theorems": [
    "C55_same_errors",
    "C55_same_content_partial",
    "C55_same_bytes_partial",
    "C55_use_after_return_refuted",
    "C55_double_return_refuted"
   ],
   "note": "C55_same_errors (no panic, same errors, same buffers) holds for all schemas with pools; same content, separate memory (C55_same_content_partial) and same bytes (C55_same_bytes_partial) need that no pooled message has a bytes field with presence (C36_optional_bytes_refuted shows that this is needed). Programs that use a message after returning it are outside the claim (C55_use_after_return_refuted, C55_double_return_refuted). Members are assigned numbers and strings only; UnmarshalVTUnsafe is not among the operations."
  },
  {
   "property": "C56",
   "status": "proved",
   "theorems": [
    "C56_generated",
    "C56_generated_struct",
    "C56_flat",
    "C56_struct",
    "C56_exact",
    "C56_nil_member_refuted"
   ],
   "note": "C56_generated and C56_generated_struct compare a line-by-line transcription of the shipped files with the model of the generator; C56_flat, C56_struct and C56_exact are the consequences for users. A Value that wraps a nil message is no receiver (C56_nil_member_refuted, an instance of C19). UnmarshalVTUnsafe of the shipped types is not transcribed."
  },
  {
   "property": "C57",
   "status": "partial",
   "theorems": [
    "C57_same_errors",
    "C57_same_content_partial",
    "C57_alone",
    "C57_alone_content_partial",
    "C57_untouched"
   ],
   "note": "C57_same_errors, C57_alone and C57_untouched hold for all schemas with pools; the same content (C57_same_content_partial, C57_alone_content_partial) needs that no pooled message has a bytes field with presence, as in C55. An operation of a goroutine is atomic in the model; that the others may run during it is not modelled (C57_untouched says that it changes nothing of theirs). The operations are those of C55."
  },
  {
   "property": "C58",
   "status": "partial",
   "theorems": [
    "C58_linear_partial",
    "C58_unsafe_partial",
    "C58_conforming",
    "C58_exponential_refuted"
   ],
   "note": "False in general (C58_exponential_refuted): the length of a map key or value is checked against the end of the buffer, not of the entry, and decoding goes on behind the entry, so bytes are decoded again; with the shipped helpers of structpb.Struct, k entries of at most 42 bytes make 2^(k+1)-1 messages. Proved: the claim for schemas whose maps hold only numbers (C58_linear_partial, C58_unsafe_partial), and for input that conforms to the format with any schema (C58_conforming). Memory is counted in cells of the decoded value, not in bytes of Go's allocator; pools are taken as empty."
  },
  {
   "property": "C59",
   "status": "proved",
   "theorems": [
    "C59_size",
    "C59_size_of_output"
   ],
   "note": "C59_size, C59_size_of_output. The Examples C59_text_* compare the printed text with all SizeVT methods of /repo/testproto, /repo/conformance and /repo/types/known. Sizes of 2^63 and more are excluded; lists of groups, for which the generator prints code that does not compile, are not well-formed schemas."
  },
  {
   "property": "C60",
   "status": "proved",
   "theorems": [
    "C60_sized_buffer",
    "C60_marshal",
    "C60_marshal_to",
    "C60_output"
   ],
   "note": "C60_sized_buffer, C60_marshal, C60_marshal_to, C60_output. The Examples C60_text_* and C60_strict_* compare the printed text with all marshalling methods of /repo/testproto, /repo/conformance and /repo/types/known. Sizes of 2^63 and more are excluded; MarshalToSizedBufferVT with a buffer that is too short is covered by C10 only."
  },
  {
   "property": "C61",
   "status": "proved",
   "theorems": [
    "C61_unmarshal",
    "C61_unsafe",
    "C61_pool",
    "C61_unsafe_pool",
    "C61_returns",
    "C61_decodes",
    "C61_round_trip"
   ],
   "note": "C61_unmarshal, C61_unsafe, C61_pool, C61_unsafe_pool, C61_returns, C61_decodes, C61_round_trip. The Examples C61_text_* compare the printed text with all UnmarshalVT and UnmarshalVTUnsafe methods of /repo/testproto, /repo/conformance and /repo/types/known. What the receiver holds after an error is not compared (the printed code may have made room in a list it then does not fill). Inputs of 2^63-8 bytes and more are excluded."
  },
  {
   "property": "C62",
   "status": "proved",
   "theorems": [
    "C62_equal",
    "C62_decides",
    "C62_separate",
    "C62_message"
   ],
   "note": "C62_equal, C62_decides, C62_separate, C62_message. The Examples C62_text_* compare the printed text with all EqualVT and EqualMessageVT methods of /repo/testproto, /repo/conformance and /repo/types/known, those of oneof wrappers included. Nil wrappers inside a oneof's interface are not values of the model."
  },
  {
   "property": "C63",
   "status": "proved",
   "theorems": [
    "C63_clone",
    "C63_same_content",
    "C63_equal",
    "C63_nil",
    "C63_message",
    "C63_pool"
   ],
   "note": "C63_clone, C63_same_content, C63_equal, C63_message, C63_nil, C63_pool. The Examples C63_text_* compare the printed text with all CloneVT and CloneMessageVT methods of /repo/testproto, /repo/conformance and /repo/types/known, those of oneof wrappers included. C63_pool draws from any reachable pool and, like C36, leaves out pooled messages with an optional bytes field. Nil wrappers inside a oneof's interface are not values of the model."
  },
  {
   "property": "C64",
   "status": "proved",
   "theorems": [
    "C64_reset",
    "C64_return",
    "C64_no_panic",
    "C64_history",
    "C64_recycled",
    "C64_unmarshal"
   ],
   "note": "C64_reset, C64_return, C64_no_panic, C64_history, C64_recycled, C64_unmarshal. The Examples C64_text_* compare the printed text with all pools, ResetVT and ReturnToVTPool methods and FromVTPool functions of /repo. In C64_history CloneVT is called on schemas without optional bytes fields in pooled messages (C36 has the counterexample); C64_unmarshal's same content likewise. FromVTPool is one call of sync.Pool.Get."
  },
  {
   "property": "C65",
   "status": "proved",
   "theorems": [
    "C65_SizeOfVarint",
    "C65_SizeOfZigzag",
    "C65_EncodeVarint",
    "C65_Skip_total",
    "C65_Skip_complete",
    "C65_Skip_sound",
    "C65_KeySize",
    "C65_model"
   ],
   "note": "C65_SizeOfVarint, C65_SizeOfZigzag, C65_EncodeVarint, C65_Skip_total, C65_Skip_complete, C65_Skip_sound, C65_KeySize, C65_model. The Example C65_text compares the statements with protohelpers.go and helpers.go; C65_parses checks the precedence of operators. bits.Len64 is the model's Len64. Offsets of EncodeVarint are within 2^61 of zero."
  },
  {
   "property": "C66",
   "status": "proved",
   "theorems": [
    "C66_client",
    "C66_handler",
    "C66_unimplemented",
    "C66_unary",
    "C66_not_sent",
    "C66_interceptor",
    "C66_stream_open",
    "C66_stream_handler",
    "C66_streams",
    "C66_stream_sent",
    "C66_stream_close",
    "C66_stream_next"
   ],
   "note": "C66_client, C66_handler and C66_unimplemented hold for the stubs whatever they are connected to; C66_unary, C66_not_sent, C66_interceptor, C66_stream_open, C66_stream_handler, C66_streams, C66_stream_sent, C66_stream_close and C66_stream_next connect the two sides through the model of google.golang.org/grpc in RpcNet.v (trusted). The Example C66_text compares the printed text, comments dropped, with the services of /repo/testproto/grpc; these have unary methods only, so the text for streaming methods is read from grpc.go alone. Messages meet the conditions of C18 and no pooled message has an optional bytes field (C37)."
  },
  {
   "property": "C67",
   "status": "partial",
   "theorems": [
    "C67_one_service_partial",
    "C67_refuted"
   ],
   "note": "C67_one_service_partial: the methods of one service. C67_refuted: the names are joined without escaping, so in a file with two services they may coincide and the file does not compile."
  },
  {
   "property": "C68",
   "status": "proved",
   "theorems": [
    "C68_size",
    "C68_marshal"
   ],
   "note": ""
  },
  {
   "property": "C69",
   "status": "partial",
   "theorems": [
    "C69_needs_size",
    "C69_refuted"
   ],
   "note": "C68 is the part that holds. C69_needs_size: the feature marshal without the feature size never compiles. C69_refuted: a list of groups, and the option wrap for messages that refer to messages of the run, do not compile."
  },
  {
   "property": "C70",
   "status": "proved",
   "theorems": [
    "C70_files",
    "C70_declares",
    "C70_skip",
    "C70_once",
    "C70_panic",
    "C70_deterministic"
   ],
   "note": "C70_files, C70_declares, C70_skip, C70_once, C70_panic, C70_deterministic about the run in Driver.v. That names in a request are distinct and carry the import path of their file is protoc's and protogen's (trusted). Of the gRPC stubs only the constructor is listed here; C67 is about the others. C70_declares and C70_once are for runs without wrap (C72 is about wrap)."
  },
  {
   "property": "C71",
   "status": "partial",
   "theorems": [
    "C71_links_partial",
    "C71_refuted"
   ],
   "note": "C71_links_partial holds when size is selected with marshal, whole packages are generated, pooled messages are generated with the feature pool, and no file of google.protobuf is generated. C71_refuted: each condition is needed (half of a package; mempool without the feature pool; a pooled message of a package that is not generated; marshal without size; several Go packages of google.protobuf)."
  },
  {
   "property": "C72",
   "status": "partial",
   "theorems": [
    "C72_wrap_partial",
    "C72_refuted"
   ],
   "note": "C72_wrap_partial holds for files without messages inside messages, without pools, whose oneofs belong to well-known types; the Example C72_structpb compares types and methods with types/known/structpb/struct_vtproto.pb.go. C72_refuted: for nested messages the methods are printed and the types are not."
  },
  {
   "property": "C73",
   "status": "proved",
   "theorems": [
    "C73_unmarshal"
   ],
   "note": "Excluded by hypothesis: groups in lists and oneofs, messages with extensions under the option wrap, pooled messages without FromVTPool (C74_refuted shows that they do not compile). Enum types are not told apart."
  },
  {
   "property": "C74",
   "status": "partial",
   "theorems": [
    "C74_refuted"
   ],
   "note": "C73 is the part that holds. C74_refuted: a list of groups, a pooled message without the feature pool, and a message with extensions under the option wrap do not compile."
  },
  {
   "property": "C75",
   "status": "proved",
   "theorems": [
    "C75_injective",
    "C75_different",
    "C75_bits"
   ],
   "note": ""
  },
  {
   "property": "C76",
   "status": "proved",
   "theorems": [
    "C76_pool",
    "C76_pools_needed"
   ],
   "note": "C76_pools_needed shows that the hypothesis on the pooled messages is needed."
  },
  {
   "property": "C77",
   "status": "proved",
   "theorems": [
    "C77_equal"
   ],
   "note": ""
  },
  {
   "property": "C78",
   "status": "proved",
   "theorems": [
    "C78_clone",
    "C78_pools_needed"
   ],
   "note": "C78_pools_needed shows that the hypothesis on FromVTPool is needed."
  },
  {
   "property": "C79",
   "status": "proved",
   "theorems": [
    "C79_text",
    "C79_stubs"
   ],
   "note": "C79_text ties the declarations to the printed text, C79_stubs has the rules. Pool functions that Alloc calls are the subject of C71; that names are declared once is C70 and C67."
  }
 ]
}