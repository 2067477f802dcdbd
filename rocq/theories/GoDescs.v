(** Written by tools/gotext.py.  The messages of /repo/testproto and /repo/conformance as
    descriptors: numbers, kinds, labels and Go names are read off the struct definitions and
    their tags in the *.pb.go files cited. *)
From Coq Require Import ZArith List Bool String.
From Verif Require Import Base Schema GoSyntax GenSize GoTextSpec.
Import ListNotations.
Open Scope string_scope.
Open Scope Z_scope.

(** /repo/testproto/ignore_unknown_fields/opt.pb.go *)
Definition d_ignore_unknown : list gmsg := [
  (* line 24 *)
  mkG "IgnoreUnknownFieldsExtension" 0 (mkM [mkF 1 0 (TField LImplicit KString)] 1 false [] false false)
    ["Foo"] []
    [(1, "foo")]].
Definition t_ignore_unknown : list (list (Z * string) * list Z) := [
  ([], [])].
Definition c_ignore_unknown : list (nat * string) := [].

(** /repo/testproto/pool/pool.pb.go *)
Definition d_pool : list gmsg := [
  (* line 24 *)
  mkG "OptionalMessage" 0 (mkM [] 0 true [] true false)
    [] []
    [];
  (* line 62 *)
  mkG "MemoryPoolExtension" 1 (mkM [mkF 1 0 (TField LImplicit KString); mkF 2 1 (TField LImplicit KUint64); mkF 3 2 (TField LOptional (KMessage 0))] 3 true [] true false)
    ["Foo1"; "Foo2"; "Foo3"] []
    [(1, "foo1"); (2, "foo2"); (3, "foo3")]].
Definition t_pool : list (list (Z * string) * list Z) := [
  ([], []);
  ([(3, "OptionalMessage")], [])].
Definition c_pool : list (nat * string) := [].

(** /repo/testproto/pool/pool_with_oneof.pb.go *)
Definition d_pool_oneof : list gmsg := [
  (* line 133 *)
  mkG "OneofTest_Test1" 1 (mkM [mkF 1 0 (TField LImplicit KInt64)] 1 true [] true false)
    ["A"] []
    [(1, "a")];
  (* line 180 *)
  mkG "OneofTest_Test2" 2 (mkM [mkF 1 0 (TField (LRepeated false) KString)] 1 true [] true false)
    ["B"] []
    [(1, "b")];
  (* line 274 *)
  mkG "OneofTest_Test3_Element2" 4 (mkM [mkF 1 0 (TField LImplicit KInt64)] 1 true [] true false)
    ["D"] []
    [(1, "d")];
  (* line 227 *)
  mkG "OneofTest_Test3" 3 (mkM [mkF 1 0 (TField LOptional (KMessage 4))] 1 true [] true false)
    ["C"] []
    [(1, "c")];
  (* line 24 *)
  mkG "OneofTest" 0 (mkM [mkF 1 0 (TField LOneof (KMessage 1)); mkF 2 0 (TField LOneof (KMessage 2)); mkF 3 0 (TField LOneof (KMessage 3)); mkF 4 0 (TField LOneof KBytes)] 1 true [] true false)
    ["Test"] [(1, ("Test1", "OneofTest_Test1_")); (2, ("Test2", "OneofTest_Test2_")); (3, ("Test3", "OneofTest_Test3_")); (4, ("Test4", "OneofTest_Test4"))]
    [(1, "test1"); (2, "test2"); (3, "test3"); (4, "test4")]].
Definition t_pool_oneof : list (list (Z * string) * list Z) := [
  ([], []);
  ([], []);
  ([], []);
  ([(1, "OneofTest_Test3_Element2")], []);
  ([(1, "OneofTest_Test1"); (2, "OneofTest_Test2"); (3, "OneofTest_Test3")], [])].
Definition c_pool_oneof : list (nat * string) := [].

(** /repo/testproto/pool/pool_with_slice_reuse.pb.go *)
Definition d_pool_slice : list gmsg := [
  (* line 24 *)
  mkG "Test1" 0 (mkM [mkF 1 0 (TField (LRepeated false) KString)] 1 true [] true false)
    ["Sl"] []
    [(1, "Sl")];
  (* line 71 *)
  mkG "Test2" 1 (mkM [mkF 1 0 (TField (LRepeated false) (KMessage 2))] 1 true [] true false)
    ["Sl"] []
    [(1, "Sl")];
  (* line 118 *)
  mkG "Slice2" 2 (mkM [mkF 1 0 (TMap KInt64 KInt64); mkF 2 1 (TField LOptional KInt32); mkF 3 2 (TField (LRepeated false) KString); mkF 4 3 (TField LOptional (KMessage 3)); mkF 5 4 (TField LImplicit KString); mkF 6 5 (TField LImplicit KInt64)] 6 true [] false false)
    ["A"; "B"; "C"; "D"; "E"; "F"] []
    [(1, "a"); (2, "b"); (3, "c"); (4, "d"); (5, "e"); (6, "f")];
  (* line 205 *)
  mkG "Element2" 3 (mkM [mkF 1 0 (TField LImplicit KInt32)] 1 true [] false false)
    ["A"] []
    [(1, "a")];
  (* line 252 *)
  mkG "Test3" 4 (mkM [mkF 1 0 (TField (LRepeated false) KBytes)] 1 true [] true false)
    ["Sl"] []
    [(1, "Sl")]].
Definition t_pool_slice : list (list (Z * string) * list Z) := [
  ([], []);
  ([(1, "Slice2")], []);
  ([(4, "Element2")], []);
  ([], []);
  ([], [])].
Definition c_pool_slice : list (nat * string) := [].

(** /repo/testproto/proto2/scalars.pb.go *)
Definition d_proto2 : list gmsg := [
  (* line 85 *)
  mkG "DoubleMessage" 0 (mkM [mkF 1 0 (TField LRequired KDouble); mkF 2 1 (TField LOptional KDouble); mkF 3 2 (TField (LRepeated false) KDouble); mkF 4 3 (TField (LRepeated true) KDouble)] 4 true [] false false)
    ["RequiredField"; "OptionalField"; "RepeatedField"; "PackedField"] []
    [(1, "required_field"); (2, "optional_field"); (3, "repeated_field"); (4, "packed_field")];
  (* line 162 *)
  mkG "FloatMessage" 1 (mkM [mkF 1 0 (TField LRequired KFloat); mkF 2 1 (TField LOptional KFloat); mkF 3 2 (TField (LRepeated false) KFloat); mkF 4 3 (TField (LRepeated true) KFloat)] 4 true [] false false)
    ["RequiredField"; "OptionalField"; "RepeatedField"; "PackedField"] []
    [(1, "required_field"); (2, "optional_field"); (3, "repeated_field"); (4, "packed_field")];
  (* line 239 *)
  mkG "Int32Message" 2 (mkM [mkF 1 0 (TField LRequired KInt32); mkF 2 1 (TField LOptional KInt32); mkF 3 2 (TField (LRepeated false) KInt32); mkF 4 3 (TField (LRepeated true) KInt32)] 4 true [] false false)
    ["RequiredField"; "OptionalField"; "RepeatedField"; "PackedField"] []
    [(1, "required_field"); (2, "optional_field"); (3, "repeated_field"); (4, "packed_field")];
  (* line 316 *)
  mkG "Int64Message" 3 (mkM [mkF 1 0 (TField LRequired KInt64); mkF 2 1 (TField LOptional KInt64); mkF 3 2 (TField (LRepeated false) KInt64); mkF 4 3 (TField (LRepeated true) KInt64)] 4 true [] false false)
    ["RequiredField"; "OptionalField"; "RepeatedField"; "PackedField"] []
    [(1, "required_field"); (2, "optional_field"); (3, "repeated_field"); (4, "packed_field")];
  (* line 393 *)
  mkG "Uint32Message" 4 (mkM [mkF 1 0 (TField LRequired KUint32); mkF 2 1 (TField LOptional KUint32); mkF 3 2 (TField (LRepeated false) KUint32); mkF 4 3 (TField (LRepeated true) KUint32)] 4 true [] false false)
    ["RequiredField"; "OptionalField"; "RepeatedField"; "PackedField"] []
    [(1, "required_field"); (2, "optional_field"); (3, "repeated_field"); (4, "packed_field")];
  (* line 470 *)
  mkG "Uint64Message" 5 (mkM [mkF 1 0 (TField LRequired KUint64); mkF 2 1 (TField LOptional KUint64); mkF 3 2 (TField (LRepeated false) KUint64); mkF 4 3 (TField (LRepeated true) KUint64)] 4 true [] false false)
    ["RequiredField"; "OptionalField"; "RepeatedField"; "PackedField"] []
    [(1, "required_field"); (2, "optional_field"); (3, "repeated_field"); (4, "packed_field")];
  (* line 547 *)
  mkG "Sint32Message" 6 (mkM [mkF 1 0 (TField LRequired KSint32); mkF 2 1 (TField LOptional KSint32); mkF 3 2 (TField (LRepeated false) KSint32); mkF 4 3 (TField (LRepeated true) KSint32)] 4 true [] false false)
    ["RequiredField"; "OptionalField"; "RepeatedField"; "PackedField"] []
    [(1, "required_field"); (2, "optional_field"); (3, "repeated_field"); (4, "packed_field")];
  (* line 624 *)
  mkG "Sint64Message" 7 (mkM [mkF 1 0 (TField LRequired KSint64); mkF 2 1 (TField LOptional KSint64); mkF 3 2 (TField (LRepeated false) KSint64); mkF 4 3 (TField (LRepeated true) KSint64)] 4 true [] false false)
    ["RequiredField"; "OptionalField"; "RepeatedField"; "PackedField"] []
    [(1, "required_field"); (2, "optional_field"); (3, "repeated_field"); (4, "packed_field")];
  (* line 701 *)
  mkG "Fixed32Message" 8 (mkM [mkF 1 0 (TField LRequired KFixed32); mkF 2 1 (TField LOptional KFixed32); mkF 3 2 (TField (LRepeated false) KFixed32); mkF 4 3 (TField (LRepeated true) KFixed32)] 4 true [] false false)
    ["RequiredField"; "OptionalField"; "RepeatedField"; "PackedField"] []
    [(1, "required_field"); (2, "optional_field"); (3, "repeated_field"); (4, "packed_field")];
  (* line 778 *)
  mkG "Fixed64Message" 9 (mkM [mkF 1 0 (TField LRequired KFixed64); mkF 2 1 (TField LOptional KFixed64); mkF 3 2 (TField (LRepeated false) KFixed64); mkF 4 3 (TField (LRepeated true) KFixed64)] 4 true [] false false)
    ["RequiredField"; "OptionalField"; "RepeatedField"; "PackedField"] []
    [(1, "required_field"); (2, "optional_field"); (3, "repeated_field"); (4, "packed_field")];
  (* line 855 *)
  mkG "Sfixed32Message" 10 (mkM [mkF 1 0 (TField LRequired KSfixed32); mkF 2 1 (TField LOptional KSfixed32); mkF 3 2 (TField (LRepeated false) KSfixed32); mkF 4 3 (TField (LRepeated true) KSfixed32)] 4 true [] false false)
    ["RequiredField"; "OptionalField"; "RepeatedField"; "PackedField"] []
    [(1, "required_field"); (2, "optional_field"); (3, "repeated_field"); (4, "packed_field")];
  (* line 932 *)
  mkG "Sfixed64Message" 11 (mkM [mkF 1 0 (TField LRequired KSfixed64); mkF 2 1 (TField LOptional KSfixed64); mkF 3 2 (TField (LRepeated false) KSfixed64); mkF 4 3 (TField (LRepeated true) KSfixed64)] 4 true [] false false)
    ["RequiredField"; "OptionalField"; "RepeatedField"; "PackedField"] []
    [(1, "required_field"); (2, "optional_field"); (3, "repeated_field"); (4, "packed_field")];
  (* line 1009 *)
  mkG "BoolMessage" 12 (mkM [mkF 1 0 (TField LRequired KBool); mkF 2 1 (TField LOptional KBool); mkF 3 2 (TField (LRepeated false) KBool); mkF 4 3 (TField (LRepeated true) KBool)] 4 true [] false false)
    ["RequiredField"; "OptionalField"; "RepeatedField"; "PackedField"] []
    [(1, "required_field"); (2, "optional_field"); (3, "repeated_field"); (4, "packed_field")];
  (* line 1085 *)
  mkG "StringMessage" 13 (mkM [mkF 1 0 (TField LRequired KString); mkF 2 1 (TField LOptional KString); mkF 3 2 (TField (LRepeated false) KString)] 3 true [] false false)
    ["RequiredField"; "OptionalField"; "RepeatedField"] []
    [(1, "required_field"); (2, "optional_field"); (3, "repeated_field")];
  (* line 1154 *)
  mkG "BytesMessage" 14 (mkM [mkF 1 0 (TField LRequired KBytes); mkF 2 1 (TField LOptional KBytes); mkF 3 2 (TField (LRepeated false) KBytes)] 3 true [] false false)
    ["RequiredField"; "OptionalField"; "RepeatedField"] []
    [(1, "required_field"); (2, "optional_field"); (3, "repeated_field")];
  (* line 1223 *)
  mkG "EnumMessage" 15 (mkM [mkF 1 0 (TField LRequired KEnum); mkF 2 1 (TField LOptional KEnum); mkF 3 2 (TField (LRepeated false) KEnum); mkF 4 3 (TField (LRepeated true) KEnum)] 4 true [] false false)
    ["RequiredField"; "OptionalField"; "RepeatedField"; "PackedField"] []
    [(1, "required_field"); (2, "optional_field"); (3, "repeated_field"); (4, "packed_field")]].
Definition t_proto2 : list (list (Z * string) * list Z) := [
  ([], []);
  ([], []);
  ([], []);
  ([], []);
  ([], []);
  ([], []);
  ([], []);
  ([], []);
  ([], []);
  ([], []);
  ([], []);
  ([], []);
  ([], []);
  ([], []);
  ([], []);
  ([(1, "EnumMessage_Num"); (2, "EnumMessage_Num"); (3, "EnumMessage_Num"); (4, "EnumMessage_Num")], [])].
Definition c_proto2 : list (nat * string) := [].

(** /repo/testproto/proto3opt/opt.pb.go *)
Definition d_proto3opt : list gmsg := [
  (* line 72 *)
  mkG "OptionalFieldInProto3" 0 (mkM [mkF 1 0 (TField LOptional KInt32); mkF 2 1 (TField LOptional KInt64); mkF 3 2 (TField LOptional KUint32); mkF 4 3 (TField LOptional KUint64); mkF 5 4 (TField LOptional KSint32); mkF 6 5 (TField LOptional KSint64); mkF 7 6 (TField LOptional KFixed32); mkF 8 7 (TField LOptional KFixed64); mkF 9 8 (TField LOptional KSfixed32); mkF 10 9 (TField LOptional KSfixed64); mkF 11 10 (TField LOptional KFloat); mkF 12 11 (TField LOptional KDouble); mkF 13 12 (TField LOptional KBool); mkF 14 13 (TField LOptional KString); mkF 15 14 (TField LOptional KBytes); mkF 16 15 (TField LOptional KEnum)] 16 true [] false false)
    ["OptionalInt32"; "OptionalInt64"; "OptionalUint32"; "OptionalUint64"; "OptionalSint32"; "OptionalSint64"; "OptionalFixed32"; "OptionalFixed64"; "OptionalSfixed32"; "OptionalSfixed64"; "OptionalFloat"; "OptionalDouble"; "OptionalBool"; "OptionalString"; "OptionalBytes"; "OptionalEnum"] []
    [(1, "optional_int32"); (2, "optional_int64"); (3, "optional_uint32"); (4, "optional_uint64"); (5, "optional_sint32"); (6, "optional_sint64"); (7, "optional_fixed32"); (8, "optional_fixed64"); (9, "optional_sfixed32"); (10, "optional_sfixed64"); (11, "optional_float"); (12, "optional_double"); (13, "optional_bool"); (14, "optional_string"); (15, "optional_bytes"); (16, "optional_enum")]].
Definition t_proto3opt : list (list (Z * string) * list Z) := [
  ([(16, "SimpleEnum")], [])].
Definition c_proto3opt : list (nat * string) := [].

(** /repo/testproto/unique/unique.pb.go *)
Definition d_unique : list gmsg := [
  (* line 24 *)
  mkG "UniqueFieldExtension" 0 (mkM [mkF 1 0 (TField LImplicit KString); mkF 2 1 (TMap KString KInt64); mkF 3 2 (TMap KInt64 KString)] 3 true [] false false)
    ["Foo"; "Bar"; "Baz"] []
    [(1, "foo"); (2, "bar"); (3, "baz")]].
Definition t_unique : list (list (Z * string) * list Z) := [
  ([], [1; 2; 3])].
Definition c_unique : list (nat * string) := [].

(** /repo/testproto/unsafe/unsafe.pb.go *)
Definition d_unsafe : list gmsg := [
  (* line 146 *)
  mkG "UnsafeTest_Sub1" 1 (mkM [mkF 1 0 (TField LImplicit KString); mkF 2 1 (TField LImplicit KBytes)] 2 true [] false false)
    ["S"; "B"] []
    [(1, "s"); (2, "b")];
  (* line 201 *)
  mkG "UnsafeTest_Sub2" 2 (mkM [mkF 1 0 (TField (LRepeated false) KString); mkF 2 1 (TField (LRepeated false) KBytes)] 2 true [] false false)
    ["S"; "B"] []
    [(1, "s"); (2, "b")];
  (* line 256 *)
  mkG "UnsafeTest_Sub3" 3 (mkM [mkF 1 0 (TMap KString KBytes)] 1 true [] false false)
    ["Foo"] []
    [(1, "foo")];
  (* line 303 *)
  mkG "UnsafeTest_Sub4" 4 (mkM [mkF 1 0 (TField LOneof KString); mkF 2 0 (TField LOneof KBytes)] 1 true [] false false)
    ["Foo"] [(1, ("S", "UnsafeTest_Sub4_S")); (2, ("B", "UnsafeTest_Sub4_B"))]
    [(1, "s"); (2, "b")];
  (* line 384 *)
  mkG "UnsafeTest_Sub5" 5 (mkM [mkF 1 0 (TMap KString KString)] 1 true [] false false)
    ["Foo"] []
    [(1, "foo")];
  (* line 23 *)
  mkG "UnsafeTest" 0 (mkM [mkF 1 0 (TField LOneof (KMessage 1)); mkF 2 0 (TField LOneof (KMessage 2)); mkF 3 0 (TField LOneof (KMessage 3)); mkF 4 0 (TField LOneof (KMessage 4)); mkF 5 0 (TField LOneof (KMessage 5))] 1 true [] false false)
    ["Sub"] [(1, ("Sub1", "UnsafeTest_Sub1_")); (2, ("Sub2", "UnsafeTest_Sub2_")); (3, ("Sub3", "UnsafeTest_Sub3_")); (4, ("Sub4", "UnsafeTest_Sub4_")); (5, ("Sub5", "UnsafeTest_Sub5_"))]
    [(1, "sub1"); (2, "sub2"); (3, "sub3"); (4, "sub4"); (5, "sub5")]].
Definition t_unsafe : list (list (Z * string) * list Z) := [
  ([], []);
  ([], []);
  ([], []);
  ([], []);
  ([], []);
  ([(1, "UnsafeTest_Sub1"); (2, "UnsafeTest_Sub2"); (3, "UnsafeTest_Sub3"); (4, "UnsafeTest_Sub4"); (5, "UnsafeTest_Sub5")], [])].
Definition c_unsafe : list (nat * string) := [].

(** /repo/testproto/wkt/wkt.pb.go *)
Definition d_wkt : list gmsg := [
  (* line 30 *)
  mkG "MessageWithWKT" 0 (mkM [mkF 1 0 (TField LOptional (KMessage 1)); mkF 2 1 (TField LOptional (KMessage 2)); mkF 3 2 (TField LOptional (KMessage 3)); mkF 4 3 (TField LOptional (KMessage 4)); mkF 5 4 (TField LOptional (KMessage 5)); mkF 6 5 (TField LOptional (KMessage 6)); mkF 7 6 (TField LOptional (KMessage 7)); mkF 8 7 (TField LOptional (KMessage 8)); mkF 9 8 (TField LOptional (KMessage 9)); mkF 10 9 (TField LOptional (KMessage 10)); mkF 11 10 (TField LOptional (KMessage 11)); mkF 12 11 (TField LOptional (KMessage 12)); mkF 13 12 (TField LOptional (KMessage 13)); mkF 14 13 (TField LOptional (KMessage 14)); mkF 15 14 (TField LOptional (KMessage 15)); mkF 16 15 (TField LOptional (KMessage 16)); mkF 17 16 (TField LOptional (KMessage 17)); mkF 18 17 (TField LImplicit KEnum)] 18 true [] false false)
    ["Any"; "Duration"; "Empty"; "FieldMask"; "Timestamp"; "DoubleValue"; "FloatValue"; "Int64Value"; "Uint64Value"; "Int32Value"; "Uint32Value"; "BoolValue"; "StringValue"; "BytesValue"; "StructValue"; "ValueValue"; "ListvalueValue"; "NullValue"] []
    [(1, "any"); (2, "duration"); (3, "empty"); (4, "field_mask"); (5, "timestamp"); (6, "double_value"); (7, "float_value"); (8, "int64_value"); (9, "uint64_value"); (10, "int32_value"); (11, "uint32_value"); (12, "bool_value"); (13, "string_value"); (14, "bytes_value"); (15, "struct_value"); (16, "value_value"); (17, "listvalue_value"); (18, "null_value")]].
Definition t_wkt : list (list (Z * string) * list Z) := [
  ([(1, "anypb.Any"); (2, "durationpb.Duration"); (3, "emptypb.Empty"); (4, "fieldmaskpb.FieldMask"); (5, "timestamppb.Timestamp"); (6, "wrapperspb.DoubleValue"); (7, "wrapperspb.FloatValue"); (8, "wrapperspb.Int64Value"); (9, "wrapperspb.UInt64Value"); (10, "wrapperspb.Int32Value"); (11, "wrapperspb.UInt32Value"); (12, "wrapperspb.BoolValue"); (13, "wrapperspb.StringValue"); (14, "wrapperspb.BytesValue"); (15, "structpb.Struct"); (16, "structpb.Value"); (17, "structpb.ListValue"); (18, "structpb.NullValue")], [])].
Definition c_wkt : list (nat * string) := [(1%nat, "anypb1.Any"); (2%nat, "durationpb1.Duration"); (3%nat, "emptypb1.Empty"); (4%nat, "fieldmaskpb1.FieldMask"); (5%nat, "timestamppb1.Timestamp"); (6%nat, "wrapperspb1.DoubleValue"); (7%nat, "wrapperspb1.FloatValue"); (8%nat, "wrapperspb1.Int64Value"); (9%nat, "wrapperspb1.UInt64Value"); (10%nat, "wrapperspb1.Int32Value"); (11%nat, "wrapperspb1.UInt32Value"); (12%nat, "wrapperspb1.BoolValue"); (13%nat, "wrapperspb1.StringValue"); (14%nat, "wrapperspb1.BytesValue"); (15%nat, "structpb1.Struct"); (16%nat, "structpb1.Value"); (17%nat, "structpb1.ListValue")].

(** /repo/testproto/grpc/grpc.pb.go *)
Definition d_grpc : list gmsg := [
  (* line 25 *)
  mkG "LocalTestMessageRequest" 0 (mkM [] 0 true [] true false)
    [] []
    [];
  (* line 63 *)
  mkG "LocalTestMessageResponse" 1 (mkM [] 0 true [] true false)
    [] []
    []].
Definition t_grpc : list (list (Z * string) * list Z) := [
  ([], []);
  ([], [])].
Definition c_grpc : list (nat * string) := [].

(** /repo/testproto/grpc/inner/inner.pb.go *)
Definition d_grpc_inner : list gmsg := [
  (* line 24 *)
  mkG "TestMessageRequest" 0 (mkM [] 0 true [] true false)
    [] []
    [];
  (* line 62 *)
  mkG "TestMessageResponse" 1 (mkM [] 0 true [] true false)
    [] []
    []].
Definition t_grpc_inner : list (list (Z * string) * list Z) := [
  ([], []);
  ([], [])].
Definition c_grpc_inner : list (nat * string) := [].

(** /repo/conformance/internal/conformance/conformance.pb.go *)
Definition d_conformance : list gmsg := [
  (* line 177 *)
  mkG "FailureSet" 0 (mkM [mkF 1 0 (TField (LRepeated false) KString)] 1 true [] false false)
    ["Failure"] []
    [(1, "failure")];
  (* line 229 *)
  mkG "ConformanceRequest" 1 (mkM [mkF 1 0 (TField LOneof KBytes); mkF 2 0 (TField LOneof KString); mkF 7 0 (TField LOneof KString); mkF 8 0 (TField LOneof KString); mkF 3 1 (TField LImplicit KEnum); mkF 4 2 (TField LImplicit KString); mkF 5 3 (TField LImplicit KEnum); mkF 6 4 (TField LOptional (KMessage 3)); mkF 9 5 (TField LImplicit KBool)] 6 true [] false false)
    ["Payload"; "RequestedOutputFormat"; "MessageType"; "TestCategory"; "JspbEncodingOptions"; "PrintUnknownFields"] [(1, ("ProtobufPayload", "ConformanceRequest_ProtobufPayload")); (2, ("JsonPayload", "ConformanceRequest_JsonPayload")); (7, ("JspbPayload", "ConformanceRequest_JspbPayload")); (8, ("TextPayload", "ConformanceRequest_TextPayload"))]
    [(1, "protobuf_payload"); (2, "json_payload"); (7, "jspb_payload"); (8, "text_payload"); (3, "requested_output_format"); (4, "message_type"); (5, "test_category"); (6, "jspb_encoding_options"); (9, "print_unknown_fields")];
  (* line 398 *)
  mkG "ConformanceResponse" 2 (mkM [mkF 1 0 (TField LOneof KString); mkF 6 0 (TField LOneof KString); mkF 2 0 (TField LOneof KString); mkF 3 0 (TField LOneof KBytes); mkF 4 0 (TField LOneof KString); mkF 5 0 (TField LOneof KString); mkF 7 0 (TField LOneof KString); mkF 8 0 (TField LOneof KString)] 1 true [] false false)
    ["Result"] [(1, ("ParseError", "ConformanceResponse_ParseError")); (6, ("SerializeError", "ConformanceResponse_SerializeError")); (2, ("RuntimeError", "ConformanceResponse_RuntimeError")); (3, ("ProtobufPayload", "ConformanceResponse_ProtobufPayload")); (4, ("JsonPayload", "ConformanceResponse_JsonPayload")); (5, ("Skipped", "ConformanceResponse_Skipped")); (7, ("JspbPayload", "ConformanceResponse_JspbPayload")); (8, ("TextPayload", "ConformanceResponse_TextPayload"))]
    [(1, "parse_error"); (6, "serialize_error"); (2, "runtime_error"); (3, "protobuf_payload"); (4, "json_payload"); (5, "skipped"); (7, "jspb_payload"); (8, "text_payload")];
  (* line 586 *)
  mkG "JspbEncodingConfig" 3 (mkM [mkF 1 0 (TField LImplicit KBool)] 1 true [] false false)
    ["UseJspbArrayAnyFormat"] []
    [(1, "use_jspb_array_any_format")]].
Definition t_conformance : list (list (Z * string) * list Z) := [
  ([], []);
  ([(3, "WireFormat"); (5, "TestCategory"); (6, "JspbEncodingConfig")], []);
  ([], []);
  ([], [])].
Definition c_conformance : list (nat * string) := [].

(** /repo/conformance/internal/conformance/test_messages_proto2.pb.go *)
Definition d_conformance2 : list gmsg := [
  (* line 1704 *)
  mkG "TestAllTypesProto2_NestedMessage" 6 (mkM [mkF 1 0 (TField LOptional KInt32); mkF 2 1 (TField LOptional (KMessage 0))] 2 true [] false false)
    ["A"; "Corecursive"] []
    [(1, "a"); (2, "corecursive")];
  (* line 1760 *)
  mkG "TestAllTypesProto2_Data" 7 (mkM [mkF 202 0 (TField LOptional KInt32); mkF 203 1 (TField LOptional KUint32)] 2 true [] false false)
    ["GroupInt32"; "GroupUint32"] []
    [(202, "group_int32"); (203, "group_uint32")];
  (* line 1816 *)
  mkG "TestAllTypesProto2_MessageSetCorrect" 8 (mkM [] 0 true [(4, 2147483647)] false false)
    [] []
    [];
  (* line 1855 *)
  mkG "TestAllTypesProto2_MessageSetCorrectExtension1" 9 (mkM [mkF 25 0 (TField LOptional KString)] 1 true [] false false)
    ["Str"] []
    [(25, "str")];
  (* line 1902 *)
  mkG "TestAllTypesProto2_MessageSetCorrectExtension2" 10 (mkM [mkF 9 0 (TField LOptional KInt32)] 1 true [] false false)
    ["I"] []
    [(9, "i")];
  (* line 244 *)
  mkG "TestAllTypesProto2" 0 (mkM [mkF 1 0 (TField LOptional KInt32); mkF 2 1 (TField LOptional KInt64); mkF 3 2 (TField LOptional KUint32); mkF 4 3 (TField LOptional KUint64); mkF 5 4 (TField LOptional KSint32); mkF 6 5 (TField LOptional KSint64); mkF 7 6 (TField LOptional KFixed32); mkF 8 7 (TField LOptional KFixed64); mkF 9 8 (TField LOptional KSfixed32); mkF 10 9 (TField LOptional KSfixed64); mkF 11 10 (TField LOptional KFloat); mkF 12 11 (TField LOptional KDouble); mkF 13 12 (TField LOptional KBool); mkF 14 13 (TField LOptional KString); mkF 15 14 (TField LOptional KBytes); mkF 18 15 (TField LOptional (KMessage 6)); mkF 19 16 (TField LOptional (KMessage 1)); mkF 21 17 (TField LOptional KEnum); mkF 22 18 (TField LOptional KEnum); mkF 24 19 (TField LOptional KString); mkF 25 20 (TField LOptional KString); mkF 27 21 (TField LOptional (KMessage 0)); mkF 31 22 (TField (LRepeated false) KInt32); mkF 32 23 (TField (LRepeated false) KInt64); mkF 33 24 (TField (LRepeated false) KUint32); mkF 34 25 (TField (LRepeated false) KUint64); mkF 35 26 (TField (LRepeated false) KSint32); mkF 36 27 (TField (LRepeated false) KSint64); mkF 37 28 (TField (LRepeated false) KFixed32); mkF 38 29 (TField (LRepeated false) KFixed64); mkF 39 30 (TField (LRepeated false) KSfixed32); mkF 40 31 (TField (LRepeated false) KSfixed64); mkF 41 32 (TField (LRepeated false) KFloat); mkF 42 33 (TField (LRepeated false) KDouble); mkF 43 34 (TField (LRepeated false) KBool); mkF 44 35 (TField (LRepeated false) KString); mkF 45 36 (TField (LRepeated false) KBytes); mkF 48 37 (TField (LRepeated false) (KMessage 6)); mkF 49 38 (TField (LRepeated false) (KMessage 1)); mkF 51 39 (TField (LRepeated false) KEnum); mkF 52 40 (TField (LRepeated false) KEnum); mkF 54 41 (TField (LRepeated false) KString); mkF 55 42 (TField (LRepeated false) KString); mkF 75 43 (TField (LRepeated true) KInt32); mkF 76 44 (TField (LRepeated true) KInt64); mkF 77 45 (TField (LRepeated true) KUint32); mkF 78 46 (TField (LRepeated true) KUint64); mkF 79 47 (TField (LRepeated true) KSint32); mkF 80 48 (TField (LRepeated true) KSint64); mkF 81 49 (TField (LRepeated true) KFixed32); mkF 82 50 (TField (LRepeated true) KFixed64); mkF 83 51 (TField (LRepeated true) KSfixed32); mkF 84 52 (TField (LRepeated true) KSfixed64); mkF 85 53 (TField (LRepeated true) KFloat); mkF 86 54 (TField (LRepeated true) KDouble); mkF 87 55 (TField (LRepeated true) KBool); mkF 88 56 (TField (LRepeated true) KEnum); mkF 89 57 (TField (LRepeated false) KInt32); mkF 90 58 (TField (LRepeated false) KInt64); mkF 91 59 (TField (LRepeated false) KUint32); mkF 92 60 (TField (LRepeated false) KUint64); mkF 93 61 (TField (LRepeated false) KSint32); mkF 94 62 (TField (LRepeated false) KSint64); mkF 95 63 (TField (LRepeated false) KFixed32); mkF 96 64 (TField (LRepeated false) KFixed64); mkF 97 65 (TField (LRepeated false) KSfixed32); mkF 98 66 (TField (LRepeated false) KSfixed64); mkF 99 67 (TField (LRepeated false) KFloat); mkF 100 68 (TField (LRepeated false) KDouble); mkF 101 69 (TField (LRepeated false) KBool); mkF 102 70 (TField (LRepeated false) KEnum); mkF 56 71 (TMap KInt32 KInt32); mkF 57 72 (TMap KInt64 KInt64); mkF 58 73 (TMap KUint32 KUint32); mkF 59 74 (TMap KUint64 KUint64); mkF 60 75 (TMap KSint32 KSint32); mkF 61 76 (TMap KSint64 KSint64); mkF 62 77 (TMap KFixed32 KFixed32); mkF 63 78 (TMap KFixed64 KFixed64); mkF 64 79 (TMap KSfixed32 KSfixed32); mkF 65 80 (TMap KSfixed64 KSfixed64); mkF 66 81 (TMap KInt32 KFloat); mkF 67 82 (TMap KInt32 KDouble); mkF 68 83 (TMap KBool KBool); mkF 69 84 (TMap KString KString); mkF 70 85 (TMap KString KBytes); mkF 71 86 (TMap KString (KMessage 6)); mkF 72 87 (TMap KString (KMessage 1)); mkF 73 88 (TMap KString KEnum); mkF 74 89 (TMap KString KEnum); mkF 111 90 (TField LOneof KUint32); mkF 112 90 (TField LOneof (KMessage 6)); mkF 113 90 (TField LOneof KString); mkF 114 90 (TField LOneof KBytes); mkF 115 90 (TField LOneof KBool); mkF 116 90 (TField LOneof KUint64); mkF 117 90 (TField LOneof KFloat); mkF 118 90 (TField LOneof KDouble); mkF 119 90 (TField LOneof KEnum); mkF 201 91 (TField LOptional (KGroup 7)); mkF 241 92 (TField LOptional KInt32); mkF 242 93 (TField LOptional KInt64); mkF 243 94 (TField LOptional KUint32); mkF 244 95 (TField LOptional KUint64); mkF 245 96 (TField LOptional KSint32); mkF 246 97 (TField LOptional KSint64); mkF 247 98 (TField LOptional KFixed32); mkF 248 99 (TField LOptional KFixed64); mkF 249 100 (TField LOptional KSfixed32); mkF 250 101 (TField LOptional KSfixed64); mkF 251 102 (TField LOptional KFloat); mkF 252 103 (TField LOptional KDouble); mkF 253 104 (TField LOptional KBool); mkF 254 105 (TField LOptional KString); mkF 255 106 (TField LOptional KBytes); mkF 401 107 (TField LOptional KInt32); mkF 402 108 (TField LOptional KInt32); mkF 403 109 (TField LOptional KInt32); mkF 404 110 (TField LOptional KInt32); mkF 405 111 (TField LOptional KInt32); mkF 406 112 (TField LOptional KInt32); mkF 407 113 (TField LOptional KInt32); mkF 408 114 (TField LOptional KInt32); mkF 409 115 (TField LOptional KInt32); mkF 410 116 (TField LOptional KInt32); mkF 411 117 (TField LOptional KInt32); mkF 412 118 (TField LOptional KInt32); mkF 413 119 (TField LOptional KInt32); mkF 414 120 (TField LOptional KInt32); mkF 415 121 (TField LOptional KInt32); mkF 416 122 (TField LOptional KInt32); mkF 417 123 (TField LOptional KInt32); mkF 418 124 (TField LOptional KInt32)] 125 true [(120, 201)] false false)
    ["OptionalInt32"; "OptionalInt64"; "OptionalUint32"; "OptionalUint64"; "OptionalSint32"; "OptionalSint64"; "OptionalFixed32"; "OptionalFixed64"; "OptionalSfixed32"; "OptionalSfixed64"; "OptionalFloat"; "OptionalDouble"; "OptionalBool"; "OptionalString"; "OptionalBytes"; "OptionalNestedMessage"; "OptionalForeignMessage"; "OptionalNestedEnum"; "OptionalForeignEnum"; "OptionalStringPiece"; "OptionalCord"; "RecursiveMessage"; "RepeatedInt32"; "RepeatedInt64"; "RepeatedUint32"; "RepeatedUint64"; "RepeatedSint32"; "RepeatedSint64"; "RepeatedFixed32"; "RepeatedFixed64"; "RepeatedSfixed32"; "RepeatedSfixed64"; "RepeatedFloat"; "RepeatedDouble"; "RepeatedBool"; "RepeatedString"; "RepeatedBytes"; "RepeatedNestedMessage"; "RepeatedForeignMessage"; "RepeatedNestedEnum"; "RepeatedForeignEnum"; "RepeatedStringPiece"; "RepeatedCord"; "PackedInt32"; "PackedInt64"; "PackedUint32"; "PackedUint64"; "PackedSint32"; "PackedSint64"; "PackedFixed32"; "PackedFixed64"; "PackedSfixed32"; "PackedSfixed64"; "PackedFloat"; "PackedDouble"; "PackedBool"; "PackedNestedEnum"; "UnpackedInt32"; "UnpackedInt64"; "UnpackedUint32"; "UnpackedUint64"; "UnpackedSint32"; "UnpackedSint64"; "UnpackedFixed32"; "UnpackedFixed64"; "UnpackedSfixed32"; "UnpackedSfixed64"; "UnpackedFloat"; "UnpackedDouble"; "UnpackedBool"; "UnpackedNestedEnum"; "MapInt32Int32"; "MapInt64Int64"; "MapUint32Uint32"; "MapUint64Uint64"; "MapSint32Sint32"; "MapSint64Sint64"; "MapFixed32Fixed32"; "MapFixed64Fixed64"; "MapSfixed32Sfixed32"; "MapSfixed64Sfixed64"; "MapInt32Float"; "MapInt32Double"; "MapBoolBool"; "MapStringString"; "MapStringBytes"; "MapStringNestedMessage"; "MapStringForeignMessage"; "MapStringNestedEnum"; "MapStringForeignEnum"; "OneofField"; "Data"; "DefaultInt32"; "DefaultInt64"; "DefaultUint32"; "DefaultUint64"; "DefaultSint32"; "DefaultSint64"; "DefaultFixed32"; "DefaultFixed64"; "DefaultSfixed32"; "DefaultSfixed64"; "DefaultFloat"; "DefaultDouble"; "DefaultBool"; "DefaultString"; "DefaultBytes"; "Fieldname1"; "FieldName2"; "XFieldName3"; "Field_Name4_"; "Field0Name5"; "Field_0Name6"; "FieldName7"; "FieldName8"; "Field_Name9"; "Field_Name10"; "FIELD_NAME11"; "FIELDName12"; "XFieldName13"; "X_FieldName14"; "Field_Name15"; "Field__Name16"; "FieldName17__"; "FieldName18__"] [(111, ("OneofUint32", "TestAllTypesProto2_OneofUint32")); (112, ("OneofNestedMessage", "TestAllTypesProto2_OneofNestedMessage")); (113, ("OneofString", "TestAllTypesProto2_OneofString")); (114, ("OneofBytes", "TestAllTypesProto2_OneofBytes")); (115, ("OneofBool", "TestAllTypesProto2_OneofBool")); (116, ("OneofUint64", "TestAllTypesProto2_OneofUint64")); (117, ("OneofFloat", "TestAllTypesProto2_OneofFloat")); (118, ("OneofDouble", "TestAllTypesProto2_OneofDouble")); (119, ("OneofEnum", "TestAllTypesProto2_OneofEnum"))]
    [(1, "optional_int32"); (2, "optional_int64"); (3, "optional_uint32"); (4, "optional_uint64"); (5, "optional_sint32"); (6, "optional_sint64"); (7, "optional_fixed32"); (8, "optional_fixed64"); (9, "optional_sfixed32"); (10, "optional_sfixed64"); (11, "optional_float"); (12, "optional_double"); (13, "optional_bool"); (14, "optional_string"); (15, "optional_bytes"); (18, "optional_nested_message"); (19, "optional_foreign_message"); (21, "optional_nested_enum"); (22, "optional_foreign_enum"); (24, "optional_string_piece"); (25, "optional_cord"); (27, "recursive_message"); (31, "repeated_int32"); (32, "repeated_int64"); (33, "repeated_uint32"); (34, "repeated_uint64"); (35, "repeated_sint32"); (36, "repeated_sint64"); (37, "repeated_fixed32"); (38, "repeated_fixed64"); (39, "repeated_sfixed32"); (40, "repeated_sfixed64"); (41, "repeated_float"); (42, "repeated_double"); (43, "repeated_bool"); (44, "repeated_string"); (45, "repeated_bytes"); (48, "repeated_nested_message"); (49, "repeated_foreign_message"); (51, "repeated_nested_enum"); (52, "repeated_foreign_enum"); (54, "repeated_string_piece"); (55, "repeated_cord"); (75, "packed_int32"); (76, "packed_int64"); (77, "packed_uint32"); (78, "packed_uint64"); (79, "packed_sint32"); (80, "packed_sint64"); (81, "packed_fixed32"); (82, "packed_fixed64"); (83, "packed_sfixed32"); (84, "packed_sfixed64"); (85, "packed_float"); (86, "packed_double"); (87, "packed_bool"); (88, "packed_nested_enum"); (89, "unpacked_int32"); (90, "unpacked_int64"); (91, "unpacked_uint32"); (92, "unpacked_uint64"); (93, "unpacked_sint32"); (94, "unpacked_sint64"); (95, "unpacked_fixed32"); (96, "unpacked_fixed64"); (97, "unpacked_sfixed32"); (98, "unpacked_sfixed64"); (99, "unpacked_float"); (100, "unpacked_double"); (101, "unpacked_bool"); (102, "unpacked_nested_enum"); (56, "map_int32_int32"); (57, "map_int64_int64"); (58, "map_uint32_uint32"); (59, "map_uint64_uint64"); (60, "map_sint32_sint32"); (61, "map_sint64_sint64"); (62, "map_fixed32_fixed32"); (63, "map_fixed64_fixed64"); (64, "map_sfixed32_sfixed32"); (65, "map_sfixed64_sfixed64"); (66, "map_int32_float"); (67, "map_int32_double"); (68, "map_bool_bool"); (69, "map_string_string"); (70, "map_string_bytes"); (71, "map_string_nested_message"); (72, "map_string_foreign_message"); (73, "map_string_nested_enum"); (74, "map_string_foreign_enum"); (111, "oneof_uint32"); (112, "oneof_nested_message"); (113, "oneof_string"); (114, "oneof_bytes"); (115, "oneof_bool"); (116, "oneof_uint64"); (117, "oneof_float"); (118, "oneof_double"); (119, "oneof_enum"); (201, "Data"); (241, "default_int32"); (242, "default_int64"); (243, "default_uint32"); (244, "default_uint64"); (245, "default_sint32"); (246, "default_sint64"); (247, "default_fixed32"); (248, "default_fixed64"); (249, "default_sfixed32"); (250, "default_sfixed64"); (251, "default_float"); (252, "default_double"); (253, "default_bool"); (254, "default_string"); (255, "default_bytes"); (401, "fieldname1"); (402, "field_name2"); (403, "_field_name3"); (404, "field__name4_"); (405, "field0name5"); (406, "field_0_name6"); (407, "fieldName7"); (408, "FieldName8"); (409, "field_Name9"); (410, "Field_Name10"); (411, "FIELD_NAME11"); (412, "FIELD_name12"); (413, "__field_name13"); (414, "__Field_name14"); (415, "field__name15"); (416, "field__Name16"); (417, "field_name17__"); (418, "Field_name18__")];
  (* line 1447 *)
  mkG "ForeignMessageProto2" 1 (mkM [mkF 1 0 (TField LOptional KInt32)] 1 true [] false false)
    ["C"] []
    [(1, "c")];
  (* line 1949 *)
  mkG "UnknownToTestAllTypes_OptionalGroup" 11 (mkM [mkF 1 0 (TField LOptional KInt32)] 1 true [] false false)
    ["A"] []
    [(1, "a")];
  (* line 1494 *)
  mkG "UnknownToTestAllTypes" 2 (mkM [mkF 1001 0 (TField LOptional KInt32); mkF 1002 1 (TField LOptional KString); mkF 1003 2 (TField LOptional (KMessage 1)); mkF 1004 3 (TField LOptional (KGroup 11)); mkF 1006 4 (TField LOptional KBool); mkF 1011 5 (TField (LRepeated false) KInt32)] 6 true [] false false)
    ["OptionalInt32"; "OptionalString"; "NestedMessage"; "Optionalgroup"; "OptionalBool"; "RepeatedInt32"] []
    [(1001, "optional_int32"); (1002, "optional_string"); (1003, "nested_message"); (1004, "OptionalGroup"); (1006, "optional_bool"); (1011, "repeated_int32")];
  (* line 1581 *)
  mkG "NullHypothesisProto2" 3 (mkM [] 0 true [] false false)
    [] []
    [];
  (* line 1619 *)
  mkG "EnumOnlyProto2" 4 (mkM [] 0 true [] false false)
    [] []
    [];
  (* line 1657 *)
  mkG "OneStringProto2" 5 (mkM [mkF 1 0 (TField LOptional KString)] 1 true [] false false)
    ["Data"] []
    [(1, "data")]].
Definition t_conformance2 : list (list (Z * string) * list Z) := [
  ([(2, "TestAllTypesProto2")], []);
  ([], []);
  ([], []);
  ([], []);
  ([], []);
  ([(18, "TestAllTypesProto2_NestedMessage"); (19, "ForeignMessageProto2"); (21, "TestAllTypesProto2_NestedEnum"); (22, "ForeignEnumProto2"); (27, "TestAllTypesProto2"); (48, "TestAllTypesProto2_NestedMessage"); (49, "ForeignMessageProto2"); (51, "TestAllTypesProto2_NestedEnum"); (52, "ForeignEnumProto2"); (88, "TestAllTypesProto2_NestedEnum"); (102, "TestAllTypesProto2_NestedEnum"); (71, "TestAllTypesProto2_NestedMessage"); (72, "ForeignMessageProto2"); (73, "TestAllTypesProto2_NestedEnum"); (74, "ForeignEnumProto2"); (112, "TestAllTypesProto2_NestedMessage"); (119, "TestAllTypesProto2_NestedEnum"); (201, "TestAllTypesProto2_Data")], []);
  ([], []);
  ([], []);
  ([(1003, "ForeignMessageProto2"); (1004, "UnknownToTestAllTypes_OptionalGroup")], []);
  ([], []);
  ([], []);
  ([], [])].
Definition c_conformance2 : list (nat * string) := [].

(** /repo/conformance/internal/conformance/test_messages_proto3.pb.go *)
Definition d_conformance3 : list gmsg := [
  (* line 1730 *)
  mkG "TestAllTypesProto3_NestedMessage" 4 (mkM [mkF 1 0 (TField LImplicit KInt32); mkF 2 1 (TField LOptional (KMessage 0))] 2 true [] false false)
    ["A"; "Corecursive"] []
    [(1, "a"); (2, "corecursive")];
  (* line 278 *)
  mkG "TestAllTypesProto3" 0 (mkM [mkF 1 0 (TField LImplicit KInt32); mkF 2 1 (TField LImplicit KInt64); mkF 3 2 (TField LImplicit KUint32); mkF 4 3 (TField LImplicit KUint64); mkF 5 4 (TField LImplicit KSint32); mkF 6 5 (TField LImplicit KSint64); mkF 7 6 (TField LImplicit KFixed32); mkF 8 7 (TField LImplicit KFixed64); mkF 9 8 (TField LImplicit KSfixed32); mkF 10 9 (TField LImplicit KSfixed64); mkF 11 10 (TField LImplicit KFloat); mkF 12 11 (TField LImplicit KDouble); mkF 13 12 (TField LImplicit KBool); mkF 14 13 (TField LImplicit KString); mkF 15 14 (TField LImplicit KBytes); mkF 18 15 (TField LOptional (KMessage 4)); mkF 19 16 (TField LOptional (KMessage 1)); mkF 21 17 (TField LImplicit KEnum); mkF 22 18 (TField LImplicit KEnum); mkF 23 19 (TField LImplicit KEnum); mkF 24 20 (TField LImplicit KString); mkF 25 21 (TField LImplicit KString); mkF 27 22 (TField LOptional (KMessage 0)); mkF 31 23 (TField (LRepeated true) KInt32); mkF 32 24 (TField (LRepeated true) KInt64); mkF 33 25 (TField (LRepeated true) KUint32); mkF 34 26 (TField (LRepeated true) KUint64); mkF 35 27 (TField (LRepeated true) KSint32); mkF 36 28 (TField (LRepeated true) KSint64); mkF 37 29 (TField (LRepeated true) KFixed32); mkF 38 30 (TField (LRepeated true) KFixed64); mkF 39 31 (TField (LRepeated true) KSfixed32); mkF 40 32 (TField (LRepeated true) KSfixed64); mkF 41 33 (TField (LRepeated true) KFloat); mkF 42 34 (TField (LRepeated true) KDouble); mkF 43 35 (TField (LRepeated true) KBool); mkF 44 36 (TField (LRepeated false) KString); mkF 45 37 (TField (LRepeated false) KBytes); mkF 48 38 (TField (LRepeated false) (KMessage 4)); mkF 49 39 (TField (LRepeated false) (KMessage 1)); mkF 51 40 (TField (LRepeated true) KEnum); mkF 52 41 (TField (LRepeated true) KEnum); mkF 54 42 (TField (LRepeated false) KString); mkF 55 43 (TField (LRepeated false) KString); mkF 75 44 (TField (LRepeated true) KInt32); mkF 76 45 (TField (LRepeated true) KInt64); mkF 77 46 (TField (LRepeated true) KUint32); mkF 78 47 (TField (LRepeated true) KUint64); mkF 79 48 (TField (LRepeated true) KSint32); mkF 80 49 (TField (LRepeated true) KSint64); mkF 81 50 (TField (LRepeated true) KFixed32); mkF 82 51 (TField (LRepeated true) KFixed64); mkF 83 52 (TField (LRepeated true) KSfixed32); mkF 84 53 (TField (LRepeated true) KSfixed64); mkF 85 54 (TField (LRepeated true) KFloat); mkF 86 55 (TField (LRepeated true) KDouble); mkF 87 56 (TField (LRepeated true) KBool); mkF 88 57 (TField (LRepeated true) KEnum); mkF 89 58 (TField (LRepeated false) KInt32); mkF 90 59 (TField (LRepeated false) KInt64); mkF 91 60 (TField (LRepeated false) KUint32); mkF 92 61 (TField (LRepeated false) KUint64); mkF 93 62 (TField (LRepeated false) KSint32); mkF 94 63 (TField (LRepeated false) KSint64); mkF 95 64 (TField (LRepeated false) KFixed32); mkF 96 65 (TField (LRepeated false) KFixed64); mkF 97 66 (TField (LRepeated false) KSfixed32); mkF 98 67 (TField (LRepeated false) KSfixed64); mkF 99 68 (TField (LRepeated false) KFloat); mkF 100 69 (TField (LRepeated false) KDouble); mkF 101 70 (TField (LRepeated false) KBool); mkF 102 71 (TField (LRepeated false) KEnum); mkF 56 72 (TMap KInt32 KInt32); mkF 57 73 (TMap KInt64 KInt64); mkF 58 74 (TMap KUint32 KUint32); mkF 59 75 (TMap KUint64 KUint64); mkF 60 76 (TMap KSint32 KSint32); mkF 61 77 (TMap KSint64 KSint64); mkF 62 78 (TMap KFixed32 KFixed32); mkF 63 79 (TMap KFixed64 KFixed64); mkF 64 80 (TMap KSfixed32 KSfixed32); mkF 65 81 (TMap KSfixed64 KSfixed64); mkF 66 82 (TMap KInt32 KFloat); mkF 67 83 (TMap KInt32 KDouble); mkF 68 84 (TMap KBool KBool); mkF 69 85 (TMap KString KString); mkF 70 86 (TMap KString KBytes); mkF 71 87 (TMap KString (KMessage 4)); mkF 72 88 (TMap KString (KMessage 1)); mkF 73 89 (TMap KString KEnum); mkF 74 90 (TMap KString KEnum); mkF 111 91 (TField LOneof KUint32); mkF 112 91 (TField LOneof (KMessage 4)); mkF 113 91 (TField LOneof KString); mkF 114 91 (TField LOneof KBytes); mkF 115 91 (TField LOneof KBool); mkF 116 91 (TField LOneof KUint64); mkF 117 91 (TField LOneof KFloat); mkF 118 91 (TField LOneof KDouble); mkF 119 91 (TField LOneof KEnum); mkF 120 91 (TField LOneof KEnum); mkF 201 92 (TField LOptional (KMessage 5)); mkF 202 93 (TField LOptional (KMessage 6)); mkF 203 94 (TField LOptional (KMessage 7)); mkF 204 95 (TField LOptional (KMessage 8)); mkF 205 96 (TField LOptional (KMessage 9)); mkF 206 97 (TField LOptional (KMessage 10)); mkF 207 98 (TField LOptional (KMessage 11)); mkF 208 99 (TField LOptional (KMessage 12)); mkF 209 100 (TField LOptional (KMessage 13)); mkF 211 101 (TField (LRepeated false) (KMessage 5)); mkF 212 102 (TField (LRepeated false) (KMessage 6)); mkF 213 103 (TField (LRepeated false) (KMessage 7)); mkF 214 104 (TField (LRepeated false) (KMessage 8)); mkF 215 105 (TField (LRepeated false) (KMessage 9)); mkF 216 106 (TField (LRepeated false) (KMessage 10)); mkF 217 107 (TField (LRepeated false) (KMessage 11)); mkF 218 108 (TField (LRepeated false) (KMessage 12)); mkF 219 109 (TField (LRepeated false) (KMessage 13)); mkF 301 110 (TField LOptional (KMessage 14)); mkF 302 111 (TField LOptional (KMessage 15)); mkF 303 112 (TField LOptional (KMessage 16)); mkF 304 113 (TField LOptional (KMessage 17)); mkF 305 114 (TField LOptional (KMessage 18)); mkF 306 115 (TField LOptional (KMessage 19)); mkF 307 116 (TField LImplicit KEnum); mkF 311 117 (TField (LRepeated false) (KMessage 14)); mkF 312 118 (TField (LRepeated false) (KMessage 15)); mkF 313 119 (TField (LRepeated false) (KMessage 16)); mkF 324 120 (TField (LRepeated false) (KMessage 17)); mkF 315 121 (TField (LRepeated false) (KMessage 18)); mkF 316 122 (TField (LRepeated false) (KMessage 19)); mkF 317 123 (TField (LRepeated false) (KMessage 20)); mkF 401 124 (TField LImplicit KInt32); mkF 402 125 (TField LImplicit KInt32); mkF 403 126 (TField LImplicit KInt32); mkF 404 127 (TField LImplicit KInt32); mkF 405 128 (TField LImplicit KInt32); mkF 406 129 (TField LImplicit KInt32); mkF 407 130 (TField LImplicit KInt32); mkF 408 131 (TField LImplicit KInt32); mkF 409 132 (TField LImplicit KInt32); mkF 410 133 (TField LImplicit KInt32); mkF 411 134 (TField LImplicit KInt32); mkF 412 135 (TField LImplicit KInt32); mkF 413 136 (TField LImplicit KInt32); mkF 414 137 (TField LImplicit KInt32); mkF 415 138 (TField LImplicit KInt32); mkF 416 139 (TField LImplicit KInt32); mkF 417 140 (TField LImplicit KInt32); mkF 418 141 (TField LImplicit KInt32)] 142 true [] false false)
    ["OptionalInt32"; "OptionalInt64"; "OptionalUint32"; "OptionalUint64"; "OptionalSint32"; "OptionalSint64"; "OptionalFixed32"; "OptionalFixed64"; "OptionalSfixed32"; "OptionalSfixed64"; "OptionalFloat"; "OptionalDouble"; "OptionalBool"; "OptionalString"; "OptionalBytes"; "OptionalNestedMessage"; "OptionalForeignMessage"; "OptionalNestedEnum"; "OptionalForeignEnum"; "OptionalAliasedEnum"; "OptionalStringPiece"; "OptionalCord"; "RecursiveMessage"; "RepeatedInt32"; "RepeatedInt64"; "RepeatedUint32"; "RepeatedUint64"; "RepeatedSint32"; "RepeatedSint64"; "RepeatedFixed32"; "RepeatedFixed64"; "RepeatedSfixed32"; "RepeatedSfixed64"; "RepeatedFloat"; "RepeatedDouble"; "RepeatedBool"; "RepeatedString"; "RepeatedBytes"; "RepeatedNestedMessage"; "RepeatedForeignMessage"; "RepeatedNestedEnum"; "RepeatedForeignEnum"; "RepeatedStringPiece"; "RepeatedCord"; "PackedInt32"; "PackedInt64"; "PackedUint32"; "PackedUint64"; "PackedSint32"; "PackedSint64"; "PackedFixed32"; "PackedFixed64"; "PackedSfixed32"; "PackedSfixed64"; "PackedFloat"; "PackedDouble"; "PackedBool"; "PackedNestedEnum"; "UnpackedInt32"; "UnpackedInt64"; "UnpackedUint32"; "UnpackedUint64"; "UnpackedSint32"; "UnpackedSint64"; "UnpackedFixed32"; "UnpackedFixed64"; "UnpackedSfixed32"; "UnpackedSfixed64"; "UnpackedFloat"; "UnpackedDouble"; "UnpackedBool"; "UnpackedNestedEnum"; "MapInt32Int32"; "MapInt64Int64"; "MapUint32Uint32"; "MapUint64Uint64"; "MapSint32Sint32"; "MapSint64Sint64"; "MapFixed32Fixed32"; "MapFixed64Fixed64"; "MapSfixed32Sfixed32"; "MapSfixed64Sfixed64"; "MapInt32Float"; "MapInt32Double"; "MapBoolBool"; "MapStringString"; "MapStringBytes"; "MapStringNestedMessage"; "MapStringForeignMessage"; "MapStringNestedEnum"; "MapStringForeignEnum"; "OneofField"; "OptionalBoolWrapper"; "OptionalInt32Wrapper"; "OptionalInt64Wrapper"; "OptionalUint32Wrapper"; "OptionalUint64Wrapper"; "OptionalFloatWrapper"; "OptionalDoubleWrapper"; "OptionalStringWrapper"; "OptionalBytesWrapper"; "RepeatedBoolWrapper"; "RepeatedInt32Wrapper"; "RepeatedInt64Wrapper"; "RepeatedUint32Wrapper"; "RepeatedUint64Wrapper"; "RepeatedFloatWrapper"; "RepeatedDoubleWrapper"; "RepeatedStringWrapper"; "RepeatedBytesWrapper"; "OptionalDuration"; "OptionalTimestamp"; "OptionalFieldMask"; "OptionalStruct"; "OptionalAny"; "OptionalValue"; "OptionalNullValue"; "RepeatedDuration"; "RepeatedTimestamp"; "RepeatedFieldmask"; "RepeatedStruct"; "RepeatedAny"; "RepeatedValue"; "RepeatedListValue"; "Fieldname1"; "FieldName2"; "XFieldName3"; "Field_Name4_"; "Field0Name5"; "Field_0Name6"; "FieldName7"; "FieldName8"; "Field_Name9"; "Field_Name10"; "FIELD_NAME11"; "FIELDName12"; "XFieldName13"; "X_FieldName14"; "Field_Name15"; "Field__Name16"; "FieldName17__"; "FieldName18__"] [(111, ("OneofUint32", "TestAllTypesProto3_OneofUint32")); (112, ("OneofNestedMessage", "TestAllTypesProto3_OneofNestedMessage")); (113, ("OneofString", "TestAllTypesProto3_OneofString")); (114, ("OneofBytes", "TestAllTypesProto3_OneofBytes")); (115, ("OneofBool", "TestAllTypesProto3_OneofBool")); (116, ("OneofUint64", "TestAllTypesProto3_OneofUint64")); (117, ("OneofFloat", "TestAllTypesProto3_OneofFloat")); (118, ("OneofDouble", "TestAllTypesProto3_OneofDouble")); (119, ("OneofEnum", "TestAllTypesProto3_OneofEnum")); (120, ("OneofNullValue", "TestAllTypesProto3_OneofNullValue"))]
    [(1, "optional_int32"); (2, "optional_int64"); (3, "optional_uint32"); (4, "optional_uint64"); (5, "optional_sint32"); (6, "optional_sint64"); (7, "optional_fixed32"); (8, "optional_fixed64"); (9, "optional_sfixed32"); (10, "optional_sfixed64"); (11, "optional_float"); (12, "optional_double"); (13, "optional_bool"); (14, "optional_string"); (15, "optional_bytes"); (18, "optional_nested_message"); (19, "optional_foreign_message"); (21, "optional_nested_enum"); (22, "optional_foreign_enum"); (23, "optional_aliased_enum"); (24, "optional_string_piece"); (25, "optional_cord"); (27, "recursive_message"); (31, "repeated_int32"); (32, "repeated_int64"); (33, "repeated_uint32"); (34, "repeated_uint64"); (35, "repeated_sint32"); (36, "repeated_sint64"); (37, "repeated_fixed32"); (38, "repeated_fixed64"); (39, "repeated_sfixed32"); (40, "repeated_sfixed64"); (41, "repeated_float"); (42, "repeated_double"); (43, "repeated_bool"); (44, "repeated_string"); (45, "repeated_bytes"); (48, "repeated_nested_message"); (49, "repeated_foreign_message"); (51, "repeated_nested_enum"); (52, "repeated_foreign_enum"); (54, "repeated_string_piece"); (55, "repeated_cord"); (75, "packed_int32"); (76, "packed_int64"); (77, "packed_uint32"); (78, "packed_uint64"); (79, "packed_sint32"); (80, "packed_sint64"); (81, "packed_fixed32"); (82, "packed_fixed64"); (83, "packed_sfixed32"); (84, "packed_sfixed64"); (85, "packed_float"); (86, "packed_double"); (87, "packed_bool"); (88, "packed_nested_enum"); (89, "unpacked_int32"); (90, "unpacked_int64"); (91, "unpacked_uint32"); (92, "unpacked_uint64"); (93, "unpacked_sint32"); (94, "unpacked_sint64"); (95, "unpacked_fixed32"); (96, "unpacked_fixed64"); (97, "unpacked_sfixed32"); (98, "unpacked_sfixed64"); (99, "unpacked_float"); (100, "unpacked_double"); (101, "unpacked_bool"); (102, "unpacked_nested_enum"); (56, "map_int32_int32"); (57, "map_int64_int64"); (58, "map_uint32_uint32"); (59, "map_uint64_uint64"); (60, "map_sint32_sint32"); (61, "map_sint64_sint64"); (62, "map_fixed32_fixed32"); (63, "map_fixed64_fixed64"); (64, "map_sfixed32_sfixed32"); (65, "map_sfixed64_sfixed64"); (66, "map_int32_float"); (67, "map_int32_double"); (68, "map_bool_bool"); (69, "map_string_string"); (70, "map_string_bytes"); (71, "map_string_nested_message"); (72, "map_string_foreign_message"); (73, "map_string_nested_enum"); (74, "map_string_foreign_enum"); (111, "oneof_uint32"); (112, "oneof_nested_message"); (113, "oneof_string"); (114, "oneof_bytes"); (115, "oneof_bool"); (116, "oneof_uint64"); (117, "oneof_float"); (118, "oneof_double"); (119, "oneof_enum"); (120, "oneof_null_value"); (201, "optional_bool_wrapper"); (202, "optional_int32_wrapper"); (203, "optional_int64_wrapper"); (204, "optional_uint32_wrapper"); (205, "optional_uint64_wrapper"); (206, "optional_float_wrapper"); (207, "optional_double_wrapper"); (208, "optional_string_wrapper"); (209, "optional_bytes_wrapper"); (211, "repeated_bool_wrapper"); (212, "repeated_int32_wrapper"); (213, "repeated_int64_wrapper"); (214, "repeated_uint32_wrapper"); (215, "repeated_uint64_wrapper"); (216, "repeated_float_wrapper"); (217, "repeated_double_wrapper"); (218, "repeated_string_wrapper"); (219, "repeated_bytes_wrapper"); (301, "optional_duration"); (302, "optional_timestamp"); (303, "optional_field_mask"); (304, "optional_struct"); (305, "optional_any"); (306, "optional_value"); (307, "optional_null_value"); (311, "repeated_duration"); (312, "repeated_timestamp"); (313, "repeated_fieldmask"); (324, "repeated_struct"); (315, "repeated_any"); (316, "repeated_value"); (317, "repeated_list_value"); (401, "fieldname1"); (402, "field_name2"); (403, "_field_name3"); (404, "field__name4_"); (405, "field0name5"); (406, "field_0_name6"); (407, "fieldName7"); (408, "FieldName8"); (409, "field_Name9"); (410, "Field_Name10"); (411, "FIELD_NAME11"); (412, "FIELD_name12"); (413, "__field_name13"); (414, "__Field_name14"); (415, "field__name15"); (416, "field__Name16"); (417, "field_name17__"); (418, "Field_name18__")];
  (* line 1607 *)
  mkG "ForeignMessage" 1 (mkM [mkF 1 0 (TField LImplicit KInt32)] 1 true [] false false)
    ["C"] []
    [(1, "c")];
  (* line 1654 *)
  mkG "NullHypothesisProto3" 2 (mkM [] 0 true [] false false)
    [] []
    [];
  (* line 1692 *)
  mkG "EnumOnlyProto3" 3 (mkM [] 0 true [] false false)
    [] []
    []].
Definition t_conformance3 : list (list (Z * string) * list Z) := [
  ([(2, "TestAllTypesProto3")], []);
  ([(18, "TestAllTypesProto3_NestedMessage"); (19, "ForeignMessage"); (21, "TestAllTypesProto3_NestedEnum"); (22, "ForeignEnum"); (23, "TestAllTypesProto3_AliasedEnum"); (27, "TestAllTypesProto3"); (48, "TestAllTypesProto3_NestedMessage"); (49, "ForeignMessage"); (51, "TestAllTypesProto3_NestedEnum"); (52, "ForeignEnum"); (88, "TestAllTypesProto3_NestedEnum"); (102, "TestAllTypesProto3_NestedEnum"); (71, "TestAllTypesProto3_NestedMessage"); (72, "ForeignMessage"); (73, "TestAllTypesProto3_NestedEnum"); (74, "ForeignEnum"); (112, "TestAllTypesProto3_NestedMessage"); (119, "TestAllTypesProto3_NestedEnum"); (120, "structpb.NullValue"); (201, "wrapperspb.BoolValue"); (202, "wrapperspb.Int32Value"); (203, "wrapperspb.Int64Value"); (204, "wrapperspb.UInt32Value"); (205, "wrapperspb.UInt64Value"); (206, "wrapperspb.FloatValue"); (207, "wrapperspb.DoubleValue"); (208, "wrapperspb.StringValue"); (209, "wrapperspb.BytesValue"); (211, "wrapperspb.BoolValue"); (212, "wrapperspb.Int32Value"); (213, "wrapperspb.Int64Value"); (214, "wrapperspb.UInt32Value"); (215, "wrapperspb.UInt64Value"); (216, "wrapperspb.FloatValue"); (217, "wrapperspb.DoubleValue"); (218, "wrapperspb.StringValue"); (219, "wrapperspb.BytesValue"); (301, "durationpb.Duration"); (302, "timestamppb.Timestamp"); (303, "fieldmaskpb.FieldMask"); (304, "structpb.Struct"); (305, "anypb.Any"); (306, "structpb.Value"); (307, "structpb.NullValue"); (311, "durationpb.Duration"); (312, "timestamppb.Timestamp"); (313, "fieldmaskpb.FieldMask"); (324, "structpb.Struct"); (315, "anypb.Any"); (316, "structpb.Value"); (317, "structpb.ListValue")], []);
  ([], []);
  ([], []);
  ([], [])].
Definition c_conformance3 : list (nat * string) := [(5%nat, "wrapperspb1.BoolValue"); (6%nat, "wrapperspb1.Int32Value"); (7%nat, "wrapperspb1.Int64Value"); (8%nat, "wrapperspb1.UInt32Value"); (9%nat, "wrapperspb1.UInt64Value"); (10%nat, "wrapperspb1.FloatValue"); (11%nat, "wrapperspb1.DoubleValue"); (12%nat, "wrapperspb1.StringValue"); (13%nat, "wrapperspb1.BytesValue"); (14%nat, "durationpb1.Duration"); (15%nat, "timestamppb1.Timestamp"); (16%nat, "fieldmaskpb1.FieldMask"); (17%nat, "structpb1.Struct"); (18%nat, "anypb1.Any"); (19%nat, "structpb1.Value"); (20%nat, "structpb1.ListValue")].

