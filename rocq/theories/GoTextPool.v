(** Written by tools/gotext.py.  The text of the pools and the FromVTPool functions, and of the ResetVT and ReturnToVTPool methods in the *_vtproto.pb.go
    files cited, as committed in /repo. *)
From Coq Require Import String List.
Import ListNotations.
Open Scope string_scope.

(** /repo/testproto/ignore_unknown_fields/opt_vtproto.pb.go *)
Definition o_ignore_unknown : list string := [].

(** /repo/testproto/pool/pool_vtproto.pb.go *)
Definition o_pool_1 : string :=
"var vtprotoPool_OptionalMessage = sync.Pool{
	New: func() interface{} {
		return &OptionalMessage{}
	},
}
func (m *OptionalMessage) ResetVT() {
	if m != nil {
		m.Reset()
	}
}
func (m *OptionalMessage) ReturnToVTPool() {
	if m != nil {
		m.ResetVT()
		vtprotoPool_OptionalMessage.Put(m)
	}
}
func OptionalMessageFromVTPool() *OptionalMessage {
	return vtprotoPool_OptionalMessage.Get().(*OptionalMessage)
}
var vtprotoPool_MemoryPoolExtension = sync.Pool{
	New: func() interface{} {
		return &MemoryPoolExtension{}
	},
}
func (m *MemoryPoolExtension) ResetVT() {
	if m != nil {
		m.Foo3.ReturnToVTPool()
		m.Reset()
	}
}
func (m *MemoryPoolExtension) ReturnToVTPool() {
	if m != nil {
		m.ResetVT()
		vtprotoPool_MemoryPoolExtension.Put(m)
	}
}
func MemoryPoolExtensionFromVTPool() *MemoryPoolExtension {
	return vtprotoPool_MemoryPoolExtension.Get().(*MemoryPoolExtension)
}
".
Definition o_pool : list string := [o_pool_1].

(** /repo/testproto/pool/pool_with_oneof_vtproto.pb.go *)
Definition o_pool_oneof_1 : string :=
"var vtprotoPool_OneofTest_Test1 = sync.Pool{
	New: func() interface{} {
		return &OneofTest_Test1{}
	},
}
func (m *OneofTest_Test1) ResetVT() {
	if m != nil {
		m.Reset()
	}
}
func (m *OneofTest_Test1) ReturnToVTPool() {
	if m != nil {
		m.ResetVT()
		vtprotoPool_OneofTest_Test1.Put(m)
	}
}
func OneofTest_Test1FromVTPool() *OneofTest_Test1 {
	return vtprotoPool_OneofTest_Test1.Get().(*OneofTest_Test1)
}
var vtprotoPool_OneofTest_Test2 = sync.Pool{
	New: func() interface{} {
		return &OneofTest_Test2{}
	},
}
func (m *OneofTest_Test2) ResetVT() {
	if m != nil {
		clear(m.B)
		f0 := m.B[:0]
		m.Reset()
		m.B = f0
	}
}
func (m *OneofTest_Test2) ReturnToVTPool() {
	if m != nil {
		m.ResetVT()
		vtprotoPool_OneofTest_Test2.Put(m)
	}
}
func OneofTest_Test2FromVTPool() *OneofTest_Test2 {
	return vtprotoPool_OneofTest_Test2.Get().(*OneofTest_Test2)
}
var vtprotoPool_OneofTest_Test3_Element2 = sync.Pool{
	New: func() interface{} {
		return &OneofTest_Test3_Element2{}
	},
}
func (m *OneofTest_Test3_Element2) ResetVT() {
	if m != nil {
		m.Reset()
	}
}
func (m *OneofTest_Test3_Element2) ReturnToVTPool() {
	if m != nil {
		m.ResetVT()
		vtprotoPool_OneofTest_Test3_Element2.Put(m)
	}
}
func OneofTest_Test3_Element2FromVTPool() *OneofTest_Test3_Element2 {
	return vtprotoPool_OneofTest_Test3_Element2.Get().(*OneofTest_Test3_Element2)
}
var vtprotoPool_OneofTest_Test3 = sync.Pool{
	New: func() interface{} {
		return &OneofTest_Test3{}
	},
}
func (m *OneofTest_Test3) ResetVT() {
	if m != nil {
		m.C.ReturnToVTPool()
		m.Reset()
	}
}
func (m *OneofTest_Test3) ReturnToVTPool() {
	if m != nil {
		m.ResetVT()
		vtprotoPool_OneofTest_Test3.Put(m)
	}
}
func OneofTest_Test3FromVTPool() *OneofTest_Test3 {
	return vtprotoPool_OneofTest_Test3.Get().(*OneofTest_Test3)
}
var vtprotoPool_OneofTest = sync.Pool{
	New: func() interface{} {
		return &OneofTest{}
	},
}
func (m *OneofTest) ResetVT() {
	if m != nil {
		if oneof, ok := m.Test.(*OneofTest_Test1_); ok {
			oneof.Test1.ReturnToVTPool()
		}
		if oneof, ok := m.Test.(*OneofTest_Test2_); ok {
			oneof.Test2.ReturnToVTPool()
		}
		if oneof, ok := m.Test.(*OneofTest_Test3_); ok {
			oneof.Test3.ReturnToVTPool()
		}
		m.Reset()
	}
}
func (m *OneofTest) ReturnToVTPool() {
	if m != nil {
		m.ResetVT()
		vtprotoPool_OneofTest.Put(m)
	}
}
func OneofTestFromVTPool() *OneofTest {
	return vtprotoPool_OneofTest.Get().(*OneofTest)
}
".
Definition o_pool_oneof : list string := [o_pool_oneof_1].

(** /repo/testproto/pool/pool_with_slice_reuse_vtproto.pb.go *)
Definition o_pool_slice_1 : string :=
"var vtprotoPool_Test1 = sync.Pool{
	New: func() interface{} {
		return &Test1{}
	},
}
func (m *Test1) ResetVT() {
	if m != nil {
		clear(m.Sl)
		f0 := m.Sl[:0]
		m.Reset()
		m.Sl = f0
	}
}
func (m *Test1) ReturnToVTPool() {
	if m != nil {
		m.ResetVT()
		vtprotoPool_Test1.Put(m)
	}
}
func Test1FromVTPool() *Test1 {
	return vtprotoPool_Test1.Get().(*Test1)
}
var vtprotoPool_Test2 = sync.Pool{
	New: func() interface{} {
		return &Test2{}
	},
}
func (m *Test2) ResetVT() {
	if m != nil {
		for _, mm := range m.Sl {
			mm.Reset()
		}
		f0 := m.Sl[:0]
		m.Reset()
		m.Sl = f0
	}
}
func (m *Test2) ReturnToVTPool() {
	if m != nil {
		m.ResetVT()
		vtprotoPool_Test2.Put(m)
	}
}
func Test2FromVTPool() *Test2 {
	return vtprotoPool_Test2.Get().(*Test2)
}
var vtprotoPool_Test3 = sync.Pool{
	New: func() interface{} {
		return &Test3{}
	},
}
func (m *Test3) ResetVT() {
	if m != nil {
		clear(m.Sl)
		f0 := m.Sl[:0]
		m.Reset()
		m.Sl = f0
	}
}
func (m *Test3) ReturnToVTPool() {
	if m != nil {
		m.ResetVT()
		vtprotoPool_Test3.Put(m)
	}
}
func Test3FromVTPool() *Test3 {
	return vtprotoPool_Test3.Get().(*Test3)
}
".
Definition o_pool_slice : list string := [o_pool_slice_1].

(** /repo/testproto/proto2/scalars_vtproto.pb.go *)
Definition o_proto2 : list string := [].

(** /repo/testproto/proto3opt/opt_vtproto.pb.go *)
Definition o_proto3opt : list string := [].

(** /repo/testproto/unique/unique_vtproto.pb.go *)
Definition o_unique : list string := [].

(** /repo/testproto/unsafe/unsafe_vtproto.pb.go *)
Definition o_unsafe : list string := [].

(** /repo/testproto/wkt/wkt_vtproto.pb.go *)
Definition o_wkt : list string := [].

(** /repo/testproto/grpc/grpc_vtproto.pb.go *)
Definition o_grpc_1 : string :=
"var vtprotoPool_LocalTestMessageRequest = sync.Pool{
	New: func() interface{} {
		return &LocalTestMessageRequest{}
	},
}
func (m *LocalTestMessageRequest) ResetVT() {
	if m != nil {
		m.Reset()
	}
}
func (m *LocalTestMessageRequest) ReturnToVTPool() {
	if m != nil {
		m.ResetVT()
		vtprotoPool_LocalTestMessageRequest.Put(m)
	}
}
func LocalTestMessageRequestFromVTPool() *LocalTestMessageRequest {
	return vtprotoPool_LocalTestMessageRequest.Get().(*LocalTestMessageRequest)
}
var vtprotoPool_LocalTestMessageResponse = sync.Pool{
	New: func() interface{} {
		return &LocalTestMessageResponse{}
	},
}
func (m *LocalTestMessageResponse) ResetVT() {
	if m != nil {
		m.Reset()
	}
}
func (m *LocalTestMessageResponse) ReturnToVTPool() {
	if m != nil {
		m.ResetVT()
		vtprotoPool_LocalTestMessageResponse.Put(m)
	}
}
func LocalTestMessageResponseFromVTPool() *LocalTestMessageResponse {
	return vtprotoPool_LocalTestMessageResponse.Get().(*LocalTestMessageResponse)
}
".
Definition o_grpc : list string := [o_grpc_1].

(** /repo/testproto/grpc/inner/inner_vtproto.pb.go *)
Definition o_grpc_inner_1 : string :=
"var vtprotoPool_TestMessageRequest = sync.Pool{
	New: func() interface{} {
		return &TestMessageRequest{}
	},
}
func (m *TestMessageRequest) ResetVT() {
	if m != nil {
		m.Reset()
	}
}
func (m *TestMessageRequest) ReturnToVTPool() {
	if m != nil {
		m.ResetVT()
		vtprotoPool_TestMessageRequest.Put(m)
	}
}
func TestMessageRequestFromVTPool() *TestMessageRequest {
	return vtprotoPool_TestMessageRequest.Get().(*TestMessageRequest)
}
var vtprotoPool_TestMessageResponse = sync.Pool{
	New: func() interface{} {
		return &TestMessageResponse{}
	},
}
func (m *TestMessageResponse) ResetVT() {
	if m != nil {
		m.Reset()
	}
}
func (m *TestMessageResponse) ReturnToVTPool() {
	if m != nil {
		m.ResetVT()
		vtprotoPool_TestMessageResponse.Put(m)
	}
}
func TestMessageResponseFromVTPool() *TestMessageResponse {
	return vtprotoPool_TestMessageResponse.Get().(*TestMessageResponse)
}
".
Definition o_grpc_inner : list string := [o_grpc_inner_1].

(** /repo/conformance/internal/conformance/conformance_vtproto.pb.go *)
Definition o_conformance : list string := [].

(** /repo/conformance/internal/conformance/test_messages_proto2_vtproto.pb.go *)
Definition o_conformance2 : list string := [].

(** /repo/conformance/internal/conformance/test_messages_proto3_vtproto.pb.go *)
Definition o_conformance3 : list string := [].

(** /repo/types/known/anypb/any_vtproto.pb.go *)
Definition o_any : list string := [].

(** /repo/types/known/durationpb/duration_vtproto.pb.go *)
Definition o_duration : list string := [].

(** /repo/types/known/emptypb/empty_vtproto.pb.go *)
Definition o_empty : list string := [].

(** /repo/types/known/fieldmaskpb/field_mask_vtproto.pb.go *)
Definition o_field_mask : list string := [].

(** /repo/types/known/structpb/struct_vtproto.pb.go *)
Definition o_struct : list string := [].

(** /repo/types/known/timestamppb/timestamp_vtproto.pb.go *)
Definition o_timestamp : list string := [].

(** /repo/types/known/wrapperspb/wrappers_vtproto.pb.go *)
Definition o_wrappers : list string := [].

