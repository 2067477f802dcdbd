STATUS = {
 "C05": "proved", "C38": "proved", "C40": "proved", "C44": "proved", "C35": "proved", "C52": "proved", "C53": "proved", "C54": "proved", "C56": "proved",
}
NOTE = {
 "C05": "C05_Skip_sound proves the claim: one record whose groups are balanced. The numbers of end-group tags are not checked by the code; C05_group_number_refuted is the witness.",
 "C18": "C18_round_trip proves the claim for messages meeting `decodable`; C18_nil_required_refuted shows that without its first clause (nil standing for a message with required fields) the claim is false of the code.",
 "C19": "C19_total proves the claim for every receiver that holds no oneof wrapper around a nil message; for such a receiver UnmarshalVT panics (C19_nil_member_refuted).",
 "C20": "C20_decodes proves the claim for input in which map entries give key and value at most once; a repeated value is or-ed into the first one (C20_entry_value_twice_refuted).",
 "C21": "C21_concat proves the claim up to the check of required fields; every call checks its own input only (C21_required_refuted).",
 "C25": "C25_conforming and C25_set prove the claim for conforming input; C25_any_input_partial for any input split the way UnmarshalVT splits it; C25_refuted: packed fields that overrun their length.",
 "C27": "The generated group loop tests the wrong tag: every group is rejected (C27_group_rejected), so the claim is false (C27_refuted).",
 "C28": "proto.UnmarshalMerge's counterpart used by the generated code resets the message: C28_refuted.",
 "C29": "C29_bad_tag_partial proves the part that holds (field number zero, end-group tags, wrong wire types of declared fields); five witnesses refute the rest.",
 "C30": "C30_bits proves the claim for every position except negative zero in a field without presence, which is dropped (C30_negative_zero_refuted).",
 "C47": "C47_reset states what the code does; C47_refuted: sub-messages without helpers are replaced instead of merged.",
 "C48": "No nesting limit: C48_unbounded_refuted.",
 "C52": "C52_older_reader holds for decoded messages without nil messages that stand for ones with required fields (`sound`); C52_older_reader_plain: nothing is asked if there are no required fields and every message type has helpers. -0.0 in a field without presence may become 0 (C30). The oneof restriction is needed: C52_added_member_refuted.",
 "C45": "C45_reencode proves the claim for decoded messages that are `settled`; C45_entry_without_value_refuted: a map entry without value leaves nil behind, which does not survive if its type has required fields.",
 "C36": "C36_emptied holds for all schemas; C36_like_new_partial and C36_clone_partial need that no pooled message has a bytes field with presence. For such a field ResetVT leaves an empty non-nil slice, so a recycled message has it set (C36_optional_bytes_refuted).",
 "C37": "C37_same_error holds for all schemas; same content (C37_same_result_partial, C37_after_reset_partial, C37_spare_capacity_partial) needs that no pooled message has a bytes field with presence, and that the program leaves no junk in spare capacity: a list shortened by reslicing leaks into later messages (C37_resliced_refuted). Programs that keep using a message after returning it are not modelled.",
 "C49": "C49_no_panic_partial: for messages without nil in lists of unpooled messages; C49_nil_element_refuted shows that this is needed.",
 "C38": "C38_same_content (every input and receiver, sub-messages newly allocated) and C38_no_copies prove the claim; C38_pooled_partial extends it to sub-messages drawn from the pools, for pooled messages without bytes fields with presence.",
 "C35": "C35_fresh, C35_unchanged, C35_original and C35_clone prove the claim on a model of memory, pools included; C35_content (pools empty): the memory made holds the tree C34 is about. Strings made by UnmarshalVTUnsafe are outside the claim (they are not memory of the message): their clones still alias the buffer (C35_unsafe_string_refuted).",
 "C39": "C39_touches and C39_buffer prove the claim on a model of memory (HeapDec.v) for every memory, receiver and outcome; C39_no_alias on trees.",
 "C54": "C54_memory relates the memory model to UnmarshalVT on trees, so that the decoding theorems (C18-C30, C45, C52) hold of memory as well; C54_layout and C54_no_panic are the claim. Both decoders, UnmarshalVT and UnmarshalVTUnsafe, are covered. Assumed: empty pools, no message waiting in the spare capacity of a list if some type is pooled, and the contracts up_owns of the upstream decoders. When a call fails, an empty list may stand where the tree has nil (left_empty). Parts that share memory are excluded for a reason: C54_shared_refuted.",
 "C55": "C55_same_errors (no panic, same errors, same buffers) holds for all schemas with pools; same content, separate memory (C55_same_content_partial) and same bytes (C55_same_bytes_partial) need that no pooled message has a bytes field with presence (C36_optional_bytes_refuted shows that this is needed). Programs that use a message after returning it are outside the claim (C55_use_after_return_refuted, C55_double_return_refuted). Members are assigned numbers and strings only; UnmarshalVTUnsafe is not among the operations.",
 "C57": "C57_same_errors, C57_alone and C57_untouched hold for all schemas with pools; the same content (C57_same_content_partial, C57_alone_content_partial) needs that no pooled message has a bytes field with presence, as in C55. An operation of a goroutine is atomic in the model; that the others may run during it is not modelled (C57_untouched says that it changes nothing of theirs). The operations are those of C55.",
 "C58": "False in general (C58_exponential_refuted): the length of a map key or value is checked against the end of the buffer, not of the entry, and decoding goes on behind the entry, so bytes are decoded again; with the shipped helpers of structpb.Struct, k entries of at most 42 bytes make 2^(k+1)-1 messages. Proved: the claim for schemas whose maps hold only numbers (C58_linear_partial, C58_unsafe_partial), and for input that conforms to the format with any schema (C58_conforming). Memory is counted in cells of the decoded value, not in bytes of Go's allocator; pools are taken as empty.",
 "C56": "C56_generated and C56_generated_struct compare a line-by-line transcription of the shipped files with the model of the generator; C56_flat, C56_struct and C56_exact are the consequences for users. A Value that wraps a nil message is no receiver (C56_nil_member_refuted, an instance of C19). UnmarshalVTUnsafe of the shipped types is not transcribed.",
 "C53": "C39_touches (UnmarshalVT), C53_return and C53_unsafe_keeps prove the claim. Mixing the two decoders is outside the claim: UnmarshalVT into a message that UnmarshalVTUnsafe filled overwrites the first buffer (C53_mixed_refuted), also through the pools (C53_pool_refuted).",
 "C40": "C40_total, C40_wild and C40_self prove the claim. Bytes that are not UTF-8 all read as the replacement character, so without the UTF-8 condition a pattern may match another name (C40_not_utf8_refuted).",
 "C41": "C41_no_error_partial: valid patterns with no unescaped brace, comma or '[' inside a class. C41_refuted and C41_class_refuted: the scanner for alternatives does not know classes, so such a pattern may pass validation and fail in Match.",
 "C44": "C44_drpc_refuted is about the dRPC functions, which the claim does not cover: they panic on values without helpers.",
 "C50": "C50_sound: every pattern, a match is justified by the documented syntax. C50_complete_partial: the converse for patterns in which every alternative and '**' is followed in a way the matcher backtracks over. Four witnesses show where the code misses matches.",
 "C59": "C59_size, C59_size_of_output. The Examples C59_text_* compare the printed text with all SizeVT methods of /repo/testproto, /repo/conformance and /repo/types/known. Sizes of 2^63 and more are excluded; lists of groups, for which the generator prints code that does not compile, are not well-formed schemas.",
 "C60": "C60_sized_buffer, C60_marshal, C60_marshal_to, C60_output. The Examples C60_text_* and C60_strict_* compare the printed text with all marshalling methods of /repo/testproto, /repo/conformance and /repo/types/known. Sizes of 2^63 and more are excluded; MarshalToSizedBufferVT with a buffer that is too short is covered by C10 only.",
 "C61": "C61_unmarshal, C61_unsafe, C61_pool, C61_unsafe_pool, C61_returns, C61_decodes, C61_round_trip. The Examples C61_text_* compare the printed text with all UnmarshalVT and UnmarshalVTUnsafe methods of /repo/testproto, /repo/conformance and /repo/types/known. What the receiver holds after an error is not compared (the printed code may have made room in a list it then does not fill). Inputs of 2^63-8 bytes and more are excluded.",
 "C62": "C62_equal, C62_decides, C62_separate, C62_message. The Examples C62_text_* compare the printed text with all EqualVT and EqualMessageVT methods of /repo/testproto, /repo/conformance and /repo/types/known, those of oneof wrappers included. Nil wrappers inside a oneof's interface are not values of the model.",
 "C63": "C63_clone, C63_same_content, C63_equal, C63_message, C63_nil, C63_pool. The Examples C63_text_* compare the printed text with all CloneVT and CloneMessageVT methods of /repo/testproto, /repo/conformance and /repo/types/known, those of oneof wrappers included. C63_pool draws from any reachable pool and, like C36, leaves out pooled messages with an optional bytes field. Nil wrappers inside a oneof's interface are not values of the model.",
 "C64": "C64_reset, C64_return, C64_no_panic, C64_history, C64_recycled, C64_unmarshal. The Examples C64_text_* compare the printed text with all pools, ResetVT and ReturnToVTPool methods and FromVTPool functions of /repo. In C64_history CloneVT is called on schemas without optional bytes fields in pooled messages (C36 has the counterexample); C64_unmarshal's same content likewise. FromVTPool is one call of sync.Pool.Get.",
 "C65": "C65_SizeOfVarint, C65_SizeOfZigzag, C65_EncodeVarint, C65_Skip_total, C65_Skip_complete, C65_Skip_sound, C65_KeySize, C65_model. The Example C65_text compares the statements with protohelpers.go and helpers.go; C65_parses checks the precedence of operators. bits.Len64 is the model's Len64. Offsets of EncodeVarint are within 2^61 of zero.",
 "C66": "C66_client, C66_handler and C66_unimplemented hold for the stubs whatever they are connected to; C66_unary, C66_not_sent, C66_interceptor, C66_stream_open, C66_stream_handler, C66_streams, C66_stream_sent, C66_stream_close and C66_stream_next connect the two sides through the model of google.golang.org/grpc in RpcNet.v (trusted). The Example C66_text compares the printed text, comments dropped, with the services of /repo/testproto/grpc; these have unary methods only, so the text for streaming methods is read from grpc.go alone. Messages meet the conditions of C18 and no pooled message has an optional bytes field (C37).",
 "C67": "C67_one_service_partial: the methods of one service. C67_refuted: the names are joined without escaping, so in a file with two services they may coincide and the file does not compile.",
 "C69": "C68 is the part that holds. C69_needs_size: the feature marshal without the feature size never compiles. C69_refuted: a list of groups, and the option wrap for messages that refer to messages of the run, do not compile.",
 "C73": "Excluded by hypothesis: groups in lists and oneofs, messages with extensions under the option wrap, pooled messages without FromVTPool (C74_refuted shows that they do not compile). Enum types are not told apart.",
 "C79": "C79_text ties the declarations to the printed text, C79_stubs has the rules. Pool functions that Alloc calls are the subject of C71; that names are declared once is C70 and C67.",
 "C78": "C78_pools_needed shows that the hypothesis on FromVTPool is needed.",
 "C76": "C76_pools_needed shows that the hypothesis on the pooled messages is needed.",
 "C74": "C73 is the part that holds. C74_refuted: a list of groups, a pooled message without the feature pool, and a message with extensions under the option wrap do not compile.",
 "C70": "C70_files, C70_declares, C70_skip, C70_once, C70_panic, C70_deterministic about the run in Driver.v. That names in a request are distinct and carry the import path of their file is protoc's and protogen's (trusted). Of the gRPC stubs only the constructor is listed here; C67 is about the others. C70_declares and C70_once are for runs without wrap (C72 is about wrap).",
 "C71": "C71_links_partial holds when size is selected with marshal, whole packages are generated, pooled messages are generated with the feature pool, and no file of google.protobuf is generated. C71_refuted: each condition is needed (half of a package; mempool without the feature pool; a pooled message of a package that is not generated; marshal without size; several Go packages of google.protobuf).",
 "C72": "C72_wrap_partial holds for files without messages inside messages, without pools, whose oneofs belong to well-known types; the Example C72_structpb compares types and methods with types/known/structpb/struct_vtproto.pb.go. C72_refuted: for nested messages the methods are printed and the types are not.",
}
