(** Written by tools/gotext.py.  The text of the CloneVT and CloneMessageVT methods in the *_vtproto.pb.go
    files cited, as committed in /repo. *)
From Coq Require Import String List.
Import ListNotations.
Open Scope string_scope.

(** /repo/testproto/ignore_unknown_fields/opt_vtproto.pb.go *)
Definition y_ignore_unknown_1 : string :=
"func (m *IgnoreUnknownFieldsExtension) CloneVT() *IgnoreUnknownFieldsExtension {
	if m == nil {
		return (*IgnoreUnknownFieldsExtension)(nil)
	}
	r := new(IgnoreUnknownFieldsExtension)
	r.Foo = m.Foo
	return r
}
func (m *IgnoreUnknownFieldsExtension) CloneMessageVT() proto.Message {
	return m.CloneVT()
}
".
Definition y_ignore_unknown : list string := [y_ignore_unknown_1].

(** /repo/testproto/pool/pool_vtproto.pb.go *)
Definition y_pool_1 : string :=
"func (m *OptionalMessage) CloneVT() *OptionalMessage {
	if m == nil {
		return (*OptionalMessage)(nil)
	}
	r := OptionalMessageFromVTPool()
	if len(m.unknownFields) > 0 {
		r.unknownFields = make([]byte, len(m.unknownFields))
		copy(r.unknownFields, m.unknownFields)
	}
	return r
}
func (m *OptionalMessage) CloneMessageVT() proto.Message {
	return m.CloneVT()
}
func (m *MemoryPoolExtension) CloneVT() *MemoryPoolExtension {
	if m == nil {
		return (*MemoryPoolExtension)(nil)
	}
	r := MemoryPoolExtensionFromVTPool()
	r.Foo1 = m.Foo1
	r.Foo2 = m.Foo2
	r.Foo3 = m.Foo3.CloneVT()
	if len(m.unknownFields) > 0 {
		r.unknownFields = make([]byte, len(m.unknownFields))
		copy(r.unknownFields, m.unknownFields)
	}
	return r
}
func (m *MemoryPoolExtension) CloneMessageVT() proto.Message {
	return m.CloneVT()
}
".
Definition y_pool : list string := [y_pool_1].

(** /repo/testproto/pool/pool_with_oneof_vtproto.pb.go *)
Definition y_pool_oneof_1 : string :=
"func (m *OneofTest_Test1) CloneVT() *OneofTest_Test1 {
	if m == nil {
		return (*OneofTest_Test1)(nil)
	}
	r := OneofTest_Test1FromVTPool()
	r.A = m.A
	if len(m.unknownFields) > 0 {
		r.unknownFields = make([]byte, len(m.unknownFields))
		copy(r.unknownFields, m.unknownFields)
	}
	return r
}
func (m *OneofTest_Test1) CloneMessageVT() proto.Message {
	return m.CloneVT()
}
func (m *OneofTest_Test2) CloneVT() *OneofTest_Test2 {
	if m == nil {
		return (*OneofTest_Test2)(nil)
	}
	r := OneofTest_Test2FromVTPool()
	if rhs := m.B; rhs != nil {
		tmpContainer := make([]string, len(rhs))
		copy(tmpContainer, rhs)
		r.B = tmpContainer
	}
	if len(m.unknownFields) > 0 {
		r.unknownFields = make([]byte, len(m.unknownFields))
		copy(r.unknownFields, m.unknownFields)
	}
	return r
}
func (m *OneofTest_Test2) CloneMessageVT() proto.Message {
	return m.CloneVT()
}
func (m *OneofTest_Test3_Element2) CloneVT() *OneofTest_Test3_Element2 {
	if m == nil {
		return (*OneofTest_Test3_Element2)(nil)
	}
	r := OneofTest_Test3_Element2FromVTPool()
	r.D = m.D
	if len(m.unknownFields) > 0 {
		r.unknownFields = make([]byte, len(m.unknownFields))
		copy(r.unknownFields, m.unknownFields)
	}
	return r
}
func (m *OneofTest_Test3_Element2) CloneMessageVT() proto.Message {
	return m.CloneVT()
}
func (m *OneofTest_Test3) CloneVT() *OneofTest_Test3 {
	if m == nil {
		return (*OneofTest_Test3)(nil)
	}
	r := OneofTest_Test3FromVTPool()
	r.C = m.C.CloneVT()
	if len(m.unknownFields) > 0 {
		r.unknownFields = make([]byte, len(m.unknownFields))
		copy(r.unknownFields, m.unknownFields)
	}
	return r
}
func (m *OneofTest_Test3) CloneMessageVT() proto.Message {
	return m.CloneVT()
}
func (m *OneofTest) CloneVT() *OneofTest {
	if m == nil {
		return (*OneofTest)(nil)
	}
	r := OneofTestFromVTPool()
	if m.Test != nil {
		r.Test = m.Test.(interface{ CloneVT() isOneofTest_Test }).CloneVT()
	}
	if len(m.unknownFields) > 0 {
		r.unknownFields = make([]byte, len(m.unknownFields))
		copy(r.unknownFields, m.unknownFields)
	}
	return r
}
func (m *OneofTest) CloneMessageVT() proto.Message {
	return m.CloneVT()
}
func (m *OneofTest_Test1_) CloneVT() isOneofTest_Test {
	if m == nil {
		return (*OneofTest_Test1_)(nil)
	}
	r := new(OneofTest_Test1_)
	r.Test1 = m.Test1.CloneVT()
	return r
}
func (m *OneofTest_Test2_) CloneVT() isOneofTest_Test {
	if m == nil {
		return (*OneofTest_Test2_)(nil)
	}
	r := new(OneofTest_Test2_)
	r.Test2 = m.Test2.CloneVT()
	return r
}
func (m *OneofTest_Test3_) CloneVT() isOneofTest_Test {
	if m == nil {
		return (*OneofTest_Test3_)(nil)
	}
	r := new(OneofTest_Test3_)
	r.Test3 = m.Test3.CloneVT()
	return r
}
func (m *OneofTest_Test4) CloneVT() isOneofTest_Test {
	if m == nil {
		return (*OneofTest_Test4)(nil)
	}
	r := new(OneofTest_Test4)
	if rhs := m.Test4; rhs != nil {
		tmpBytes := make([]byte, len(rhs))
		copy(tmpBytes, rhs)
		r.Test4 = tmpBytes
	}
	return r
}
".
Definition y_pool_oneof : list string := [y_pool_oneof_1].

(** /repo/testproto/pool/pool_with_slice_reuse_vtproto.pb.go *)
Definition y_pool_slice_1 : string :=
"func (m *Test1) CloneVT() *Test1 {
	if m == nil {
		return (*Test1)(nil)
	}
	r := Test1FromVTPool()
	if rhs := m.Sl; rhs != nil {
		tmpContainer := make([]string, len(rhs))
		copy(tmpContainer, rhs)
		r.Sl = tmpContainer
	}
	if len(m.unknownFields) > 0 {
		r.unknownFields = make([]byte, len(m.unknownFields))
		copy(r.unknownFields, m.unknownFields)
	}
	return r
}
func (m *Test1) CloneMessageVT() proto.Message {
	return m.CloneVT()
}
func (m *Test2) CloneVT() *Test2 {
	if m == nil {
		return (*Test2)(nil)
	}
	r := Test2FromVTPool()
	if rhs := m.Sl; rhs != nil {
		tmpContainer := make([]*Slice2, len(rhs))
		for k, v := range rhs {
			tmpContainer[k] = v.CloneVT()
		}
		r.Sl = tmpContainer
	}
	if len(m.unknownFields) > 0 {
		r.unknownFields = make([]byte, len(m.unknownFields))
		copy(r.unknownFields, m.unknownFields)
	}
	return r
}
func (m *Test2) CloneMessageVT() proto.Message {
	return m.CloneVT()
}
func (m *Slice2) CloneVT() *Slice2 {
	if m == nil {
		return (*Slice2)(nil)
	}
	r := new(Slice2)
	r.D = m.D.CloneVT()
	r.E = m.E
	r.F = m.F
	if rhs := m.A; rhs != nil {
		tmpContainer := make(map[int64]int64, len(rhs))
		for k, v := range rhs {
			tmpContainer[k] = v
		}
		r.A = tmpContainer
	}
	if rhs := m.B; rhs != nil {
		tmpVal := *rhs
		r.B = &tmpVal
	}
	if rhs := m.C; rhs != nil {
		tmpContainer := make([]string, len(rhs))
		copy(tmpContainer, rhs)
		r.C = tmpContainer
	}
	if len(m.unknownFields) > 0 {
		r.unknownFields = make([]byte, len(m.unknownFields))
		copy(r.unknownFields, m.unknownFields)
	}
	return r
}
func (m *Slice2) CloneMessageVT() proto.Message {
	return m.CloneVT()
}
func (m *Element2) CloneVT() *Element2 {
	if m == nil {
		return (*Element2)(nil)
	}
	r := new(Element2)
	r.A = m.A
	if len(m.unknownFields) > 0 {
		r.unknownFields = make([]byte, len(m.unknownFields))
		copy(r.unknownFields, m.unknownFields)
	}
	return r
}
func (m *Element2) CloneMessageVT() proto.Message {
	return m.CloneVT()
}
func (m *Test3) CloneVT() *Test3 {
	if m == nil {
		return (*Test3)(nil)
	}
	r := Test3FromVTPool()
	if rhs := m.Sl; rhs != nil {
		tmpContainer := make([][]byte, len(rhs))
		for k, v := range rhs {
			tmpBytes := make([]byte, len(v))
			copy(tmpBytes, v)
			tmpContainer[k] = tmpBytes
		}
		r.Sl = tmpContainer
	}
	if len(m.unknownFields) > 0 {
		r.unknownFields = make([]byte, len(m.unknownFields))
		copy(r.unknownFields, m.unknownFields)
	}
	return r
}
func (m *Test3) CloneMessageVT() proto.Message {
	return m.CloneVT()
}
".
Definition y_pool_slice : list string := [y_pool_slice_1].

(** /repo/testproto/proto2/scalars_vtproto.pb.go *)
Definition y_proto2_1 : string :=
"func (m *DoubleMessage) CloneVT() *DoubleMessage {
	if m == nil {
		return (*DoubleMessage)(nil)
	}
	r := new(DoubleMessage)
	if rhs := m.RequiredField; rhs != nil {
		tmpVal := *rhs
		r.RequiredField = &tmpVal
	}
	if rhs := m.OptionalField; rhs != nil {
		tmpVal := *rhs
		r.OptionalField = &tmpVal
	}
	if rhs := m.RepeatedField; rhs != nil {
		tmpContainer := make([]float64, len(rhs))
		copy(tmpContainer, rhs)
		r.RepeatedField = tmpContainer
	}
	if rhs := m.PackedField; rhs != nil {
		tmpContainer := make([]float64, len(rhs))
		copy(tmpContainer, rhs)
		r.PackedField = tmpContainer
	}
	if len(m.unknownFields) > 0 {
		r.unknownFields = make([]byte, len(m.unknownFields))
		copy(r.unknownFields, m.unknownFields)
	}
	return r
}
func (m *DoubleMessage) CloneMessageVT() proto.Message {
	return m.CloneVT()
}
func (m *FloatMessage) CloneVT() *FloatMessage {
	if m == nil {
		return (*FloatMessage)(nil)
	}
	r := new(FloatMessage)
	if rhs := m.RequiredField; rhs != nil {
		tmpVal := *rhs
		r.RequiredField = &tmpVal
	}
	if rhs := m.OptionalField; rhs != nil {
		tmpVal := *rhs
		r.OptionalField = &tmpVal
	}
	if rhs := m.RepeatedField; rhs != nil {
		tmpContainer := make([]float32, len(rhs))
		copy(tmpContainer, rhs)
		r.RepeatedField = tmpContainer
	}
	if rhs := m.PackedField; rhs != nil {
		tmpContainer := make([]float32, len(rhs))
		copy(tmpContainer, rhs)
		r.PackedField = tmpContainer
	}
	if len(m.unknownFields) > 0 {
		r.unknownFields = make([]byte, len(m.unknownFields))
		copy(r.unknownFields, m.unknownFields)
	}
	return r
}
func (m *FloatMessage) CloneMessageVT() proto.Message {
	return m.CloneVT()
}
func (m *Int32Message) CloneVT() *Int32Message {
	if m == nil {
		return (*Int32Message)(nil)
	}
	r := new(Int32Message)
	if rhs := m.RequiredField; rhs != nil {
		tmpVal := *rhs
		r.RequiredField = &tmpVal
	}
	if rhs := m.OptionalField; rhs != nil {
		tmpVal := *rhs
		r.OptionalField = &tmpVal
	}
	if rhs := m.RepeatedField; rhs != nil {
		tmpContainer := make([]int32, len(rhs))
		copy(tmpContainer, rhs)
		r.RepeatedField = tmpContainer
	}
	if rhs := m.PackedField; rhs != nil {
		tmpContainer := make([]int32, len(rhs))
		copy(tmpContainer, rhs)
		r.PackedField = tmpContainer
	}
	if len(m.unknownFields) > 0 {
		r.unknownFields = make([]byte, len(m.unknownFields))
		copy(r.unknownFields, m.unknownFields)
	}
	return r
}
func (m *Int32Message) CloneMessageVT() proto.Message {
	return m.CloneVT()
}
func (m *Int64Message) CloneVT() *Int64Message {
	if m == nil {
		return (*Int64Message)(nil)
	}
	r := new(Int64Message)
	if rhs := m.RequiredField; rhs != nil {
		tmpVal := *rhs
		r.RequiredField = &tmpVal
	}
	if rhs := m.OptionalField; rhs != nil {
		tmpVal := *rhs
		r.OptionalField = &tmpVal
	}
	if rhs := m.RepeatedField; rhs != nil {
		tmpContainer := make([]int64, len(rhs))
		copy(tmpContainer, rhs)
		r.RepeatedField = tmpContainer
	}
	if rhs := m.PackedField; rhs != nil {
		tmpContainer := make([]int64, len(rhs))
		copy(tmpContainer, rhs)
		r.PackedField = tmpContainer
	}
	if len(m.unknownFields) > 0 {
		r.unknownFields = make([]byte, len(m.unknownFields))
		copy(r.unknownFields, m.unknownFields)
	}
	return r
}
func (m *Int64Message) CloneMessageVT() proto.Message {
	return m.CloneVT()
}
func (m *Uint32Message) CloneVT() *Uint32Message {
	if m == nil {
		return (*Uint32Message)(nil)
	}
	r := new(Uint32Message)
	if rhs := m.RequiredField; rhs != nil {
		tmpVal := *rhs
		r.RequiredField = &tmpVal
	}
	if rhs := m.OptionalField; rhs != nil {
		tmpVal := *rhs
		r.OptionalField = &tmpVal
	}
	if rhs := m.RepeatedField; rhs != nil {
		tmpContainer := make([]uint32, len(rhs))
		copy(tmpContainer, rhs)
		r.RepeatedField = tmpContainer
	}
	if rhs := m.PackedField; rhs != nil {
		tmpContainer := make([]uint32, len(rhs))
		copy(tmpContainer, rhs)
		r.PackedField = tmpContainer
	}
	if len(m.unknownFields) > 0 {
		r.unknownFields = make([]byte, len(m.unknownFields))
		copy(r.unknownFields, m.unknownFields)
	}
	return r
}
func (m *Uint32Message) CloneMessageVT() proto.Message {
	return m.CloneVT()
}
func (m *Uint64Message) CloneVT() *Uint64Message {
	if m == nil {
		return (*Uint64Message)(nil)
	}
	r := new(Uint64Message)
	if rhs := m.RequiredField; rhs != nil {
		tmpVal := *rhs
		r.RequiredField = &tmpVal
	}
	if rhs := m.OptionalField; rhs != nil {
		tmpVal := *rhs
		r.OptionalField = &tmpVal
	}
	if rhs := m.RepeatedField; rhs != nil {
		tmpContainer := make([]uint64, len(rhs))
		copy(tmpContainer, rhs)
		r.RepeatedField = tmpContainer
	}
	if rhs := m.PackedField; rhs != nil {
		tmpContainer := make([]uint64, len(rhs))
		copy(tmpContainer, rhs)
		r.PackedField = tmpContainer
	}
	if len(m.unknownFields) > 0 {
		r.unknownFields = make([]byte, len(m.unknownFields))
		copy(r.unknownFields, m.unknownFields)
	}
	return r
}
func (m *Uint64Message) CloneMessageVT() proto.Message {
	return m.CloneVT()
}
func (m *Sint32Message) CloneVT() *Sint32Message {
	if m == nil {
		return (*Sint32Message)(nil)
	}
	r := new(Sint32Message)
	if rhs := m.RequiredField; rhs != nil {
		tmpVal := *rhs
		r.RequiredField = &tmpVal
	}
	if rhs := m.OptionalField; rhs != nil {
		tmpVal := *rhs
		r.OptionalField = &tmpVal
	}
	if rhs := m.RepeatedField; rhs != nil {
		tmpContainer := make([]int32, len(rhs))
		copy(tmpContainer, rhs)
		r.RepeatedField = tmpContainer
	}
	if rhs := m.PackedField; rhs != nil {
		tmpContainer := make([]int32, len(rhs))
		copy(tmpContainer, rhs)
		r.PackedField = tmpContainer
	}
	if len(m.unknownFields) > 0 {
		r.unknownFields = make([]byte, len(m.unknownFields))
		copy(r.unknownFields, m.unknownFields)
	}
	return r
}
func (m *Sint32Message) CloneMessageVT() proto.Message {
	return m.CloneVT()
}
func (m *Sint64Message) CloneVT() *Sint64Message {
	if m == nil {
		return (*Sint64Message)(nil)
	}
	r := new(Sint64Message)
	if rhs := m.RequiredField; rhs != nil {
		tmpVal := *rhs
		r.RequiredField = &tmpVal
	}
	if rhs := m.OptionalField; rhs != nil {
		tmpVal := *rhs
		r.OptionalField = &tmpVal
	}
	if rhs := m.RepeatedField; rhs != nil {
		tmpContainer := make([]int64, len(rhs))
		copy(tmpContainer, rhs)
		r.RepeatedField = tmpContainer
	}
	if rhs := m.PackedField; rhs != nil {
		tmpContainer := make([]int64, len(rhs))
		copy(tmpContainer, rhs)
		r.PackedField = tmpContainer
	}
	if len(m.unknownFields) > 0 {
		r.unknownFields = make([]byte, len(m.unknownFields))
		copy(r.unknownFields, m.unknownFields)
	}
	return r
}
func (m *Sint64Message) CloneMessageVT() proto.Message {
	return m.CloneVT()
}
func (m *Fixed32Message) CloneVT() *Fixed32Message {
	if m == nil {
		return (*Fixed32Message)(nil)
	}
	r := new(Fixed32Message)
	if rhs := m.RequiredField; rhs != nil {
		tmpVal := *rhs
		r.RequiredField = &tmpVal
	}
	if rhs := m.OptionalField; rhs != nil {
		tmpVal := *rhs
		r.OptionalField = &tmpVal
	}
	if rhs := m.RepeatedField; rhs != nil {
		tmpContainer := make([]uint32, len(rhs))
		copy(tmpContainer, rhs)
		r.RepeatedField = tmpContainer
	}
	if rhs := m.PackedField; rhs != nil {
		tmpContainer := make([]uint32, len(rhs))
		copy(tmpContainer, rhs)
		r.PackedField = tmpContainer
	}
	if len(m.unknownFields) > 0 {
		r.unknownFields = make([]byte, len(m.unknownFields))
		copy(r.unknownFields, m.unknownFields)
	}
	return r
}
func (m *Fixed32Message) CloneMessageVT() proto.Message {
	return m.CloneVT()
}
func (m *Fixed64Message) CloneVT() *Fixed64Message {
	if m == nil {
		return (*Fixed64Message)(nil)
	}
	r := new(Fixed64Message)
	if rhs := m.RequiredField; rhs != nil {
		tmpVal := *rhs
		r.RequiredField = &tmpVal
	}
	if rhs := m.OptionalField; rhs != nil {
		tmpVal := *rhs
		r.OptionalField = &tmpVal
	}
	if rhs := m.RepeatedField; rhs != nil {
		tmpContainer := make([]uint64, len(rhs))
		copy(tmpContainer, rhs)
		r.RepeatedField = tmpContainer
	}
	if rhs := m.PackedField; rhs != nil {
		tmpContainer := make([]uint64, len(rhs))
		copy(tmpContainer, rhs)
		r.PackedField = tmpContainer
	}
	if len(m.unknownFields) > 0 {
		r.unknownFields = make([]byte, len(m.unknownFields))
".
Definition y_proto2_2 : string :=
"		copy(r.unknownFields, m.unknownFields)
	}
	return r
}
func (m *Fixed64Message) CloneMessageVT() proto.Message {
	return m.CloneVT()
}
func (m *Sfixed32Message) CloneVT() *Sfixed32Message {
	if m == nil {
		return (*Sfixed32Message)(nil)
	}
	r := new(Sfixed32Message)
	if rhs := m.RequiredField; rhs != nil {
		tmpVal := *rhs
		r.RequiredField = &tmpVal
	}
	if rhs := m.OptionalField; rhs != nil {
		tmpVal := *rhs
		r.OptionalField = &tmpVal
	}
	if rhs := m.RepeatedField; rhs != nil {
		tmpContainer := make([]int32, len(rhs))
		copy(tmpContainer, rhs)
		r.RepeatedField = tmpContainer
	}
	if rhs := m.PackedField; rhs != nil {
		tmpContainer := make([]int32, len(rhs))
		copy(tmpContainer, rhs)
		r.PackedField = tmpContainer
	}
	if len(m.unknownFields) > 0 {
		r.unknownFields = make([]byte, len(m.unknownFields))
		copy(r.unknownFields, m.unknownFields)
	}
	return r
}
func (m *Sfixed32Message) CloneMessageVT() proto.Message {
	return m.CloneVT()
}
func (m *Sfixed64Message) CloneVT() *Sfixed64Message {
	if m == nil {
		return (*Sfixed64Message)(nil)
	}
	r := new(Sfixed64Message)
	if rhs := m.RequiredField; rhs != nil {
		tmpVal := *rhs
		r.RequiredField = &tmpVal
	}
	if rhs := m.OptionalField; rhs != nil {
		tmpVal := *rhs
		r.OptionalField = &tmpVal
	}
	if rhs := m.RepeatedField; rhs != nil {
		tmpContainer := make([]int64, len(rhs))
		copy(tmpContainer, rhs)
		r.RepeatedField = tmpContainer
	}
	if rhs := m.PackedField; rhs != nil {
		tmpContainer := make([]int64, len(rhs))
		copy(tmpContainer, rhs)
		r.PackedField = tmpContainer
	}
	if len(m.unknownFields) > 0 {
		r.unknownFields = make([]byte, len(m.unknownFields))
		copy(r.unknownFields, m.unknownFields)
	}
	return r
}
func (m *Sfixed64Message) CloneMessageVT() proto.Message {
	return m.CloneVT()
}
func (m *BoolMessage) CloneVT() *BoolMessage {
	if m == nil {
		return (*BoolMessage)(nil)
	}
	r := new(BoolMessage)
	if rhs := m.RequiredField; rhs != nil {
		tmpVal := *rhs
		r.RequiredField = &tmpVal
	}
	if rhs := m.OptionalField; rhs != nil {
		tmpVal := *rhs
		r.OptionalField = &tmpVal
	}
	if rhs := m.RepeatedField; rhs != nil {
		tmpContainer := make([]bool, len(rhs))
		copy(tmpContainer, rhs)
		r.RepeatedField = tmpContainer
	}
	if rhs := m.PackedField; rhs != nil {
		tmpContainer := make([]bool, len(rhs))
		copy(tmpContainer, rhs)
		r.PackedField = tmpContainer
	}
	if len(m.unknownFields) > 0 {
		r.unknownFields = make([]byte, len(m.unknownFields))
		copy(r.unknownFields, m.unknownFields)
	}
	return r
}
func (m *BoolMessage) CloneMessageVT() proto.Message {
	return m.CloneVT()
}
func (m *StringMessage) CloneVT() *StringMessage {
	if m == nil {
		return (*StringMessage)(nil)
	}
	r := new(StringMessage)
	if rhs := m.RequiredField; rhs != nil {
		tmpVal := *rhs
		r.RequiredField = &tmpVal
	}
	if rhs := m.OptionalField; rhs != nil {
		tmpVal := *rhs
		r.OptionalField = &tmpVal
	}
	if rhs := m.RepeatedField; rhs != nil {
		tmpContainer := make([]string, len(rhs))
		copy(tmpContainer, rhs)
		r.RepeatedField = tmpContainer
	}
	if len(m.unknownFields) > 0 {
		r.unknownFields = make([]byte, len(m.unknownFields))
		copy(r.unknownFields, m.unknownFields)
	}
	return r
}
func (m *StringMessage) CloneMessageVT() proto.Message {
	return m.CloneVT()
}
func (m *BytesMessage) CloneVT() *BytesMessage {
	if m == nil {
		return (*BytesMessage)(nil)
	}
	r := new(BytesMessage)
	if rhs := m.RequiredField; rhs != nil {
		tmpBytes := make([]byte, len(rhs))
		copy(tmpBytes, rhs)
		r.RequiredField = tmpBytes
	}
	if rhs := m.OptionalField; rhs != nil {
		tmpBytes := make([]byte, len(rhs))
		copy(tmpBytes, rhs)
		r.OptionalField = tmpBytes
	}
	if rhs := m.RepeatedField; rhs != nil {
		tmpContainer := make([][]byte, len(rhs))
		for k, v := range rhs {
			tmpBytes := make([]byte, len(v))
			copy(tmpBytes, v)
			tmpContainer[k] = tmpBytes
		}
		r.RepeatedField = tmpContainer
	}
	if len(m.unknownFields) > 0 {
		r.unknownFields = make([]byte, len(m.unknownFields))
		copy(r.unknownFields, m.unknownFields)
	}
	return r
}
func (m *BytesMessage) CloneMessageVT() proto.Message {
	return m.CloneVT()
}
func (m *EnumMessage) CloneVT() *EnumMessage {
	if m == nil {
		return (*EnumMessage)(nil)
	}
	r := new(EnumMessage)
	if rhs := m.RequiredField; rhs != nil {
		tmpVal := *rhs
		r.RequiredField = &tmpVal
	}
	if rhs := m.OptionalField; rhs != nil {
		tmpVal := *rhs
		r.OptionalField = &tmpVal
	}
	if rhs := m.RepeatedField; rhs != nil {
		tmpContainer := make([]EnumMessage_Num, len(rhs))
		copy(tmpContainer, rhs)
		r.RepeatedField = tmpContainer
	}
	if rhs := m.PackedField; rhs != nil {
		tmpContainer := make([]EnumMessage_Num, len(rhs))
		copy(tmpContainer, rhs)
		r.PackedField = tmpContainer
	}
	if len(m.unknownFields) > 0 {
		r.unknownFields = make([]byte, len(m.unknownFields))
		copy(r.unknownFields, m.unknownFields)
	}
	return r
}
func (m *EnumMessage) CloneMessageVT() proto.Message {
	return m.CloneVT()
}
".
Definition y_proto2 : list string := [y_proto2_1; y_proto2_2].

(** /repo/testproto/proto3opt/opt_vtproto.pb.go *)
Definition y_proto3opt_1 : string :=
"func (m *OptionalFieldInProto3) CloneVT() *OptionalFieldInProto3 {
	if m == nil {
		return (*OptionalFieldInProto3)(nil)
	}
	r := new(OptionalFieldInProto3)
	if rhs := m.OptionalInt32; rhs != nil {
		tmpVal := *rhs
		r.OptionalInt32 = &tmpVal
	}
	if rhs := m.OptionalInt64; rhs != nil {
		tmpVal := *rhs
		r.OptionalInt64 = &tmpVal
	}
	if rhs := m.OptionalUint32; rhs != nil {
		tmpVal := *rhs
		r.OptionalUint32 = &tmpVal
	}
	if rhs := m.OptionalUint64; rhs != nil {
		tmpVal := *rhs
		r.OptionalUint64 = &tmpVal
	}
	if rhs := m.OptionalSint32; rhs != nil {
		tmpVal := *rhs
		r.OptionalSint32 = &tmpVal
	}
	if rhs := m.OptionalSint64; rhs != nil {
		tmpVal := *rhs
		r.OptionalSint64 = &tmpVal
	}
	if rhs := m.OptionalFixed32; rhs != nil {
		tmpVal := *rhs
		r.OptionalFixed32 = &tmpVal
	}
	if rhs := m.OptionalFixed64; rhs != nil {
		tmpVal := *rhs
		r.OptionalFixed64 = &tmpVal
	}
	if rhs := m.OptionalSfixed32; rhs != nil {
		tmpVal := *rhs
		r.OptionalSfixed32 = &tmpVal
	}
	if rhs := m.OptionalSfixed64; rhs != nil {
		tmpVal := *rhs
		r.OptionalSfixed64 = &tmpVal
	}
	if rhs := m.OptionalFloat; rhs != nil {
		tmpVal := *rhs
		r.OptionalFloat = &tmpVal
	}
	if rhs := m.OptionalDouble; rhs != nil {
		tmpVal := *rhs
		r.OptionalDouble = &tmpVal
	}
	if rhs := m.OptionalBool; rhs != nil {
		tmpVal := *rhs
		r.OptionalBool = &tmpVal
	}
	if rhs := m.OptionalString; rhs != nil {
		tmpVal := *rhs
		r.OptionalString = &tmpVal
	}
	if rhs := m.OptionalBytes; rhs != nil {
		tmpBytes := make([]byte, len(rhs))
		copy(tmpBytes, rhs)
		r.OptionalBytes = tmpBytes
	}
	if rhs := m.OptionalEnum; rhs != nil {
		tmpVal := *rhs
		r.OptionalEnum = &tmpVal
	}
	if len(m.unknownFields) > 0 {
		r.unknownFields = make([]byte, len(m.unknownFields))
		copy(r.unknownFields, m.unknownFields)
	}
	return r
}
func (m *OptionalFieldInProto3) CloneMessageVT() proto.Message {
	return m.CloneVT()
}
".
Definition y_proto3opt : list string := [y_proto3opt_1].

(** /repo/testproto/unique/unique_vtproto.pb.go *)
Definition y_unique_1 : string :=
"func (m *UniqueFieldExtension) CloneVT() *UniqueFieldExtension {
	if m == nil {
		return (*UniqueFieldExtension)(nil)
	}
	r := new(UniqueFieldExtension)
	r.Foo = m.Foo
	if rhs := m.Bar; rhs != nil {
		tmpContainer := make(map[string]int64, len(rhs))
		for k, v := range rhs {
			tmpContainer[k] = v
		}
		r.Bar = tmpContainer
	}
	if rhs := m.Baz; rhs != nil {
		tmpContainer := make(map[int64]string, len(rhs))
		for k, v := range rhs {
			tmpContainer[k] = v
		}
		r.Baz = tmpContainer
	}
	if len(m.unknownFields) > 0 {
		r.unknownFields = make([]byte, len(m.unknownFields))
		copy(r.unknownFields, m.unknownFields)
	}
	return r
}
func (m *UniqueFieldExtension) CloneMessageVT() proto.Message {
	return m.CloneVT()
}
".
Definition y_unique : list string := [y_unique_1].

(** /repo/testproto/unsafe/unsafe_vtproto.pb.go *)
Definition y_unsafe_1 : string :=
"func (m *UnsafeTest_Sub1) CloneVT() *UnsafeTest_Sub1 {
	if m == nil {
		return (*UnsafeTest_Sub1)(nil)
	}
	r := new(UnsafeTest_Sub1)
	r.S = m.S
	if rhs := m.B; rhs != nil {
		tmpBytes := make([]byte, len(rhs))
		copy(tmpBytes, rhs)
		r.B = tmpBytes
	}
	if len(m.unknownFields) > 0 {
		r.unknownFields = make([]byte, len(m.unknownFields))
		copy(r.unknownFields, m.unknownFields)
	}
	return r
}
func (m *UnsafeTest_Sub1) CloneMessageVT() proto.Message {
	return m.CloneVT()
}
func (m *UnsafeTest_Sub2) CloneVT() *UnsafeTest_Sub2 {
	if m == nil {
		return (*UnsafeTest_Sub2)(nil)
	}
	r := new(UnsafeTest_Sub2)
	if rhs := m.S; rhs != nil {
		tmpContainer := make([]string, len(rhs))
		copy(tmpContainer, rhs)
		r.S = tmpContainer
	}
	if rhs := m.B; rhs != nil {
		tmpContainer := make([][]byte, len(rhs))
		for k, v := range rhs {
			tmpBytes := make([]byte, len(v))
			copy(tmpBytes, v)
			tmpContainer[k] = tmpBytes
		}
		r.B = tmpContainer
	}
	if len(m.unknownFields) > 0 {
		r.unknownFields = make([]byte, len(m.unknownFields))
		copy(r.unknownFields, m.unknownFields)
	}
	return r
}
func (m *UnsafeTest_Sub2) CloneMessageVT() proto.Message {
	return m.CloneVT()
}
func (m *UnsafeTest_Sub3) CloneVT() *UnsafeTest_Sub3 {
	if m == nil {
		return (*UnsafeTest_Sub3)(nil)
	}
	r := new(UnsafeTest_Sub3)
	if rhs := m.Foo; rhs != nil {
		tmpContainer := make(map[string][]byte, len(rhs))
		for k, v := range rhs {
			tmpBytes := make([]byte, len(v))
			copy(tmpBytes, v)
			tmpContainer[k] = tmpBytes
		}
		r.Foo = tmpContainer
	}
	if len(m.unknownFields) > 0 {
		r.unknownFields = make([]byte, len(m.unknownFields))
		copy(r.unknownFields, m.unknownFields)
	}
	return r
}
func (m *UnsafeTest_Sub3) CloneMessageVT() proto.Message {
	return m.CloneVT()
}
func (m *UnsafeTest_Sub4) CloneVT() *UnsafeTest_Sub4 {
	if m == nil {
		return (*UnsafeTest_Sub4)(nil)
	}
	r := new(UnsafeTest_Sub4)
	if m.Foo != nil {
		r.Foo = m.Foo.(interface{ CloneVT() isUnsafeTest_Sub4_Foo }).CloneVT()
	}
	if len(m.unknownFields) > 0 {
		r.unknownFields = make([]byte, len(m.unknownFields))
		copy(r.unknownFields, m.unknownFields)
	}
	return r
}
func (m *UnsafeTest_Sub4) CloneMessageVT() proto.Message {
	return m.CloneVT()
}
func (m *UnsafeTest_Sub4_S) CloneVT() isUnsafeTest_Sub4_Foo {
	if m == nil {
		return (*UnsafeTest_Sub4_S)(nil)
	}
	r := new(UnsafeTest_Sub4_S)
	r.S = m.S
	return r
}
func (m *UnsafeTest_Sub4_B) CloneVT() isUnsafeTest_Sub4_Foo {
	if m == nil {
		return (*UnsafeTest_Sub4_B)(nil)
	}
	r := new(UnsafeTest_Sub4_B)
	if rhs := m.B; rhs != nil {
		tmpBytes := make([]byte, len(rhs))
		copy(tmpBytes, rhs)
		r.B = tmpBytes
	}
	return r
}
func (m *UnsafeTest_Sub5) CloneVT() *UnsafeTest_Sub5 {
	if m == nil {
		return (*UnsafeTest_Sub5)(nil)
	}
	r := new(UnsafeTest_Sub5)
	if rhs := m.Foo; rhs != nil {
		tmpContainer := make(map[string]string, len(rhs))
		for k, v := range rhs {
			tmpContainer[k] = v
		}
		r.Foo = tmpContainer
	}
	if len(m.unknownFields) > 0 {
		r.unknownFields = make([]byte, len(m.unknownFields))
		copy(r.unknownFields, m.unknownFields)
	}
	return r
}
func (m *UnsafeTest_Sub5) CloneMessageVT() proto.Message {
	return m.CloneVT()
}
func (m *UnsafeTest) CloneVT() *UnsafeTest {
	if m == nil {
		return (*UnsafeTest)(nil)
	}
	r := new(UnsafeTest)
	if m.Sub != nil {
		r.Sub = m.Sub.(interface{ CloneVT() isUnsafeTest_Sub }).CloneVT()
	}
	if len(m.unknownFields) > 0 {
		r.unknownFields = make([]byte, len(m.unknownFields))
		copy(r.unknownFields, m.unknownFields)
	}
	return r
}
func (m *UnsafeTest) CloneMessageVT() proto.Message {
	return m.CloneVT()
}
func (m *UnsafeTest_Sub1_) CloneVT() isUnsafeTest_Sub {
	if m == nil {
		return (*UnsafeTest_Sub1_)(nil)
	}
	r := new(UnsafeTest_Sub1_)
	r.Sub1 = m.Sub1.CloneVT()
	return r
}
func (m *UnsafeTest_Sub2_) CloneVT() isUnsafeTest_Sub {
	if m == nil {
		return (*UnsafeTest_Sub2_)(nil)
	}
	r := new(UnsafeTest_Sub2_)
	r.Sub2 = m.Sub2.CloneVT()
	return r
}
func (m *UnsafeTest_Sub3_) CloneVT() isUnsafeTest_Sub {
	if m == nil {
		return (*UnsafeTest_Sub3_)(nil)
	}
	r := new(UnsafeTest_Sub3_)
	r.Sub3 = m.Sub3.CloneVT()
	return r
}
func (m *UnsafeTest_Sub4_) CloneVT() isUnsafeTest_Sub {
	if m == nil {
		return (*UnsafeTest_Sub4_)(nil)
	}
	r := new(UnsafeTest_Sub4_)
	r.Sub4 = m.Sub4.CloneVT()
	return r
}
func (m *UnsafeTest_Sub5_) CloneVT() isUnsafeTest_Sub {
	if m == nil {
		return (*UnsafeTest_Sub5_)(nil)
	}
	r := new(UnsafeTest_Sub5_)
	r.Sub5 = m.Sub5.CloneVT()
	return r
}
".
Definition y_unsafe : list string := [y_unsafe_1].

(** /repo/testproto/wkt/wkt_vtproto.pb.go *)
Definition y_wkt_1 : string :=
"func (m *MessageWithWKT) CloneVT() *MessageWithWKT {
	if m == nil {
		return (*MessageWithWKT)(nil)
	}
	r := new(MessageWithWKT)
	r.Any = (*anypb.Any)((*anypb1.Any)(m.Any).CloneVT())
	r.Duration = (*durationpb.Duration)((*durationpb1.Duration)(m.Duration).CloneVT())
	r.Empty = (*emptypb.Empty)((*emptypb1.Empty)(m.Empty).CloneVT())
	r.FieldMask = (*fieldmaskpb.FieldMask)((*fieldmaskpb1.FieldMask)(m.FieldMask).CloneVT())
	r.Timestamp = (*timestamppb.Timestamp)((*timestamppb1.Timestamp)(m.Timestamp).CloneVT())
	r.DoubleValue = (*wrapperspb.DoubleValue)((*wrapperspb1.DoubleValue)(m.DoubleValue).CloneVT())
	r.FloatValue = (*wrapperspb.FloatValue)((*wrapperspb1.FloatValue)(m.FloatValue).CloneVT())
	r.Int64Value = (*wrapperspb.Int64Value)((*wrapperspb1.Int64Value)(m.Int64Value).CloneVT())
	r.Uint64Value = (*wrapperspb.UInt64Value)((*wrapperspb1.UInt64Value)(m.Uint64Value).CloneVT())
	r.Int32Value = (*wrapperspb.Int32Value)((*wrapperspb1.Int32Value)(m.Int32Value).CloneVT())
	r.Uint32Value = (*wrapperspb.UInt32Value)((*wrapperspb1.UInt32Value)(m.Uint32Value).CloneVT())
	r.BoolValue = (*wrapperspb.BoolValue)((*wrapperspb1.BoolValue)(m.BoolValue).CloneVT())
	r.StringValue = (*wrapperspb.StringValue)((*wrapperspb1.StringValue)(m.StringValue).CloneVT())
	r.BytesValue = (*wrapperspb.BytesValue)((*wrapperspb1.BytesValue)(m.BytesValue).CloneVT())
	r.StructValue = (*structpb.Struct)((*structpb1.Struct)(m.StructValue).CloneVT())
	r.ValueValue = (*structpb.Value)((*structpb1.Value)(m.ValueValue).CloneVT())
	r.ListvalueValue = (*structpb.ListValue)((*structpb1.ListValue)(m.ListvalueValue).CloneVT())
	r.NullValue = m.NullValue
	if len(m.unknownFields) > 0 {
		r.unknownFields = make([]byte, len(m.unknownFields))
		copy(r.unknownFields, m.unknownFields)
	}
	return r
}
func (m *MessageWithWKT) CloneMessageVT() proto.Message {
	return m.CloneVT()
}
".
Definition y_wkt : list string := [y_wkt_1].

(** /repo/testproto/grpc/grpc_vtproto.pb.go *)
Definition y_grpc_1 : string :=
"func (m *LocalTestMessageRequest) CloneVT() *LocalTestMessageRequest {
	if m == nil {
		return (*LocalTestMessageRequest)(nil)
	}
	r := LocalTestMessageRequestFromVTPool()
	if len(m.unknownFields) > 0 {
		r.unknownFields = make([]byte, len(m.unknownFields))
		copy(r.unknownFields, m.unknownFields)
	}
	return r
}
func (m *LocalTestMessageRequest) CloneMessageVT() proto.Message {
	return m.CloneVT()
}
func (m *LocalTestMessageResponse) CloneVT() *LocalTestMessageResponse {
	if m == nil {
		return (*LocalTestMessageResponse)(nil)
	}
	r := LocalTestMessageResponseFromVTPool()
	if len(m.unknownFields) > 0 {
		r.unknownFields = make([]byte, len(m.unknownFields))
		copy(r.unknownFields, m.unknownFields)
	}
	return r
}
func (m *LocalTestMessageResponse) CloneMessageVT() proto.Message {
	return m.CloneVT()
}
".
Definition y_grpc : list string := [y_grpc_1].

(** /repo/testproto/grpc/inner/inner_vtproto.pb.go *)
Definition y_grpc_inner_1 : string :=
"func (m *TestMessageRequest) CloneVT() *TestMessageRequest {
	if m == nil {
		return (*TestMessageRequest)(nil)
	}
	r := TestMessageRequestFromVTPool()
	if len(m.unknownFields) > 0 {
		r.unknownFields = make([]byte, len(m.unknownFields))
		copy(r.unknownFields, m.unknownFields)
	}
	return r
}
func (m *TestMessageRequest) CloneMessageVT() proto.Message {
	return m.CloneVT()
}
func (m *TestMessageResponse) CloneVT() *TestMessageResponse {
	if m == nil {
		return (*TestMessageResponse)(nil)
	}
	r := TestMessageResponseFromVTPool()
	if len(m.unknownFields) > 0 {
		r.unknownFields = make([]byte, len(m.unknownFields))
		copy(r.unknownFields, m.unknownFields)
	}
	return r
}
func (m *TestMessageResponse) CloneMessageVT() proto.Message {
	return m.CloneVT()
}
".
Definition y_grpc_inner : list string := [y_grpc_inner_1].

(** /repo/conformance/internal/conformance/conformance_vtproto.pb.go *)
Definition y_conformance_1 : string :=
"func (m *FailureSet) CloneVT() *FailureSet {
	if m == nil {
		return (*FailureSet)(nil)
	}
	r := new(FailureSet)
	if rhs := m.Failure; rhs != nil {
		tmpContainer := make([]string, len(rhs))
		copy(tmpContainer, rhs)
		r.Failure = tmpContainer
	}
	if len(m.unknownFields) > 0 {
		r.unknownFields = make([]byte, len(m.unknownFields))
		copy(r.unknownFields, m.unknownFields)
	}
	return r
}
func (m *FailureSet) CloneMessageVT() proto.Message {
	return m.CloneVT()
}
func (m *ConformanceRequest) CloneVT() *ConformanceRequest {
	if m == nil {
		return (*ConformanceRequest)(nil)
	}
	r := new(ConformanceRequest)
	r.RequestedOutputFormat = m.RequestedOutputFormat
	r.MessageType = m.MessageType
	r.TestCategory = m.TestCategory
	r.JspbEncodingOptions = m.JspbEncodingOptions.CloneVT()
	r.PrintUnknownFields = m.PrintUnknownFields
	if m.Payload != nil {
		r.Payload = m.Payload.(interface {
			CloneVT() isConformanceRequest_Payload
		}).CloneVT()
	}
	if len(m.unknownFields) > 0 {
		r.unknownFields = make([]byte, len(m.unknownFields))
		copy(r.unknownFields, m.unknownFields)
	}
	return r
}
func (m *ConformanceRequest) CloneMessageVT() proto.Message {
	return m.CloneVT()
}
func (m *ConformanceRequest_ProtobufPayload) CloneVT() isConformanceRequest_Payload {
	if m == nil {
		return (*ConformanceRequest_ProtobufPayload)(nil)
	}
	r := new(ConformanceRequest_ProtobufPayload)
	if rhs := m.ProtobufPayload; rhs != nil {
		tmpBytes := make([]byte, len(rhs))
		copy(tmpBytes, rhs)
		r.ProtobufPayload = tmpBytes
	}
	return r
}
func (m *ConformanceRequest_JsonPayload) CloneVT() isConformanceRequest_Payload {
	if m == nil {
		return (*ConformanceRequest_JsonPayload)(nil)
	}
	r := new(ConformanceRequest_JsonPayload)
	r.JsonPayload = m.JsonPayload
	return r
}
func (m *ConformanceRequest_JspbPayload) CloneVT() isConformanceRequest_Payload {
	if m == nil {
		return (*ConformanceRequest_JspbPayload)(nil)
	}
	r := new(ConformanceRequest_JspbPayload)
	r.JspbPayload = m.JspbPayload
	return r
}
func (m *ConformanceRequest_TextPayload) CloneVT() isConformanceRequest_Payload {
	if m == nil {
		return (*ConformanceRequest_TextPayload)(nil)
	}
	r := new(ConformanceRequest_TextPayload)
	r.TextPayload = m.TextPayload
	return r
}
func (m *ConformanceResponse) CloneVT() *ConformanceResponse {
	if m == nil {
		return (*ConformanceResponse)(nil)
	}
	r := new(ConformanceResponse)
	if m.Result != nil {
		r.Result = m.Result.(interface {
			CloneVT() isConformanceResponse_Result
		}).CloneVT()
	}
	if len(m.unknownFields) > 0 {
		r.unknownFields = make([]byte, len(m.unknownFields))
		copy(r.unknownFields, m.unknownFields)
	}
	return r
}
func (m *ConformanceResponse) CloneMessageVT() proto.Message {
	return m.CloneVT()
}
func (m *ConformanceResponse_ParseError) CloneVT() isConformanceResponse_Result {
	if m == nil {
		return (*ConformanceResponse_ParseError)(nil)
	}
	r := new(ConformanceResponse_ParseError)
	r.ParseError = m.ParseError
	return r
}
func (m *ConformanceResponse_SerializeError) CloneVT() isConformanceResponse_Result {
	if m == nil {
		return (*ConformanceResponse_SerializeError)(nil)
	}
	r := new(ConformanceResponse_SerializeError)
	r.SerializeError = m.SerializeError
	return r
}
func (m *ConformanceResponse_RuntimeError) CloneVT() isConformanceResponse_Result {
	if m == nil {
		return (*ConformanceResponse_RuntimeError)(nil)
	}
	r := new(ConformanceResponse_RuntimeError)
	r.RuntimeError = m.RuntimeError
	return r
}
func (m *ConformanceResponse_ProtobufPayload) CloneVT() isConformanceResponse_Result {
	if m == nil {
		return (*ConformanceResponse_ProtobufPayload)(nil)
	}
	r := new(ConformanceResponse_ProtobufPayload)
	if rhs := m.ProtobufPayload; rhs != nil {
		tmpBytes := make([]byte, len(rhs))
		copy(tmpBytes, rhs)
		r.ProtobufPayload = tmpBytes
	}
	return r
}
func (m *ConformanceResponse_JsonPayload) CloneVT() isConformanceResponse_Result {
	if m == nil {
		return (*ConformanceResponse_JsonPayload)(nil)
	}
	r := new(ConformanceResponse_JsonPayload)
	r.JsonPayload = m.JsonPayload
	return r
}
func (m *ConformanceResponse_Skipped) CloneVT() isConformanceResponse_Result {
	if m == nil {
		return (*ConformanceResponse_Skipped)(nil)
	}
	r := new(ConformanceResponse_Skipped)
	r.Skipped = m.Skipped
	return r
}
func (m *ConformanceResponse_JspbPayload) CloneVT() isConformanceResponse_Result {
	if m == nil {
		return (*ConformanceResponse_JspbPayload)(nil)
	}
	r := new(ConformanceResponse_JspbPayload)
	r.JspbPayload = m.JspbPayload
	return r
}
func (m *ConformanceResponse_TextPayload) CloneVT() isConformanceResponse_Result {
	if m == nil {
		return (*ConformanceResponse_TextPayload)(nil)
	}
	r := new(ConformanceResponse_TextPayload)
	r.TextPayload = m.TextPayload
	return r
}
func (m *JspbEncodingConfig) CloneVT() *JspbEncodingConfig {
	if m == nil {
		return (*JspbEncodingConfig)(nil)
	}
	r := new(JspbEncodingConfig)
	r.UseJspbArrayAnyFormat = m.UseJspbArrayAnyFormat
	if len(m.unknownFields) > 0 {
		r.unknownFields = make([]byte, len(m.unknownFields))
		copy(r.unknownFields, m.unknownFields)
	}
	return r
}
func (m *JspbEncodingConfig) CloneMessageVT() proto.Message {
	return m.CloneVT()
}
".
Definition y_conformance : list string := [y_conformance_1].

(** /repo/conformance/internal/conformance/test_messages_proto2_vtproto.pb.go *)
Definition y_conformance2_1 : string :=
"func (m *TestAllTypesProto2_NestedMessage) CloneVT() *TestAllTypesProto2_NestedMessage {
	if m == nil {
		return (*TestAllTypesProto2_NestedMessage)(nil)
	}
	r := new(TestAllTypesProto2_NestedMessage)
	r.Corecursive = m.Corecursive.CloneVT()
	if rhs := m.A; rhs != nil {
		tmpVal := *rhs
		r.A = &tmpVal
	}
	if len(m.unknownFields) > 0 {
		r.unknownFields = make([]byte, len(m.unknownFields))
		copy(r.unknownFields, m.unknownFields)
	}
	return r
}
func (m *TestAllTypesProto2_NestedMessage) CloneMessageVT() proto.Message {
	return m.CloneVT()
}
func (m *TestAllTypesProto2_Data) CloneVT() *TestAllTypesProto2_Data {
	if m == nil {
		return (*TestAllTypesProto2_Data)(nil)
	}
	r := new(TestAllTypesProto2_Data)
	if rhs := m.GroupInt32; rhs != nil {
		tmpVal := *rhs
		r.GroupInt32 = &tmpVal
	}
	if rhs := m.GroupUint32; rhs != nil {
		tmpVal := *rhs
		r.GroupUint32 = &tmpVal
	}
	if len(m.unknownFields) > 0 {
		r.unknownFields = make([]byte, len(m.unknownFields))
		copy(r.unknownFields, m.unknownFields)
	}
	return r
}
func (m *TestAllTypesProto2_Data) CloneMessageVT() proto.Message {
	return m.CloneVT()
}
func (m *TestAllTypesProto2_MessageSetCorrect) CloneVT() *TestAllTypesProto2_MessageSetCorrect {
	if m == nil {
		return (*TestAllTypesProto2_MessageSetCorrect)(nil)
	}
	r := new(TestAllTypesProto2_MessageSetCorrect)
	if len(m.unknownFields) > 0 {
		r.unknownFields = make([]byte, len(m.unknownFields))
		copy(r.unknownFields, m.unknownFields)
	}
	return r
}
func (m *TestAllTypesProto2_MessageSetCorrect) CloneMessageVT() proto.Message {
	return m.CloneVT()
}
func (m *TestAllTypesProto2_MessageSetCorrectExtension1) CloneVT() *TestAllTypesProto2_MessageSetCorrectExtension1 {
	if m == nil {
		return (*TestAllTypesProto2_MessageSetCorrectExtension1)(nil)
	}
	r := new(TestAllTypesProto2_MessageSetCorrectExtension1)
	if rhs := m.Str; rhs != nil {
		tmpVal := *rhs
		r.Str = &tmpVal
	}
	if len(m.unknownFields) > 0 {
		r.unknownFields = make([]byte, len(m.unknownFields))
		copy(r.unknownFields, m.unknownFields)
	}
	return r
}
func (m *TestAllTypesProto2_MessageSetCorrectExtension1) CloneMessageVT() proto.Message {
	return m.CloneVT()
}
func (m *TestAllTypesProto2_MessageSetCorrectExtension2) CloneVT() *TestAllTypesProto2_MessageSetCorrectExtension2 {
	if m == nil {
		return (*TestAllTypesProto2_MessageSetCorrectExtension2)(nil)
	}
	r := new(TestAllTypesProto2_MessageSetCorrectExtension2)
	if rhs := m.I; rhs != nil {
		tmpVal := *rhs
		r.I = &tmpVal
	}
	if len(m.unknownFields) > 0 {
		r.unknownFields = make([]byte, len(m.unknownFields))
		copy(r.unknownFields, m.unknownFields)
	}
	return r
}
func (m *TestAllTypesProto2_MessageSetCorrectExtension2) CloneMessageVT() proto.Message {
	return m.CloneVT()
}
func (m *TestAllTypesProto2) CloneVT() *TestAllTypesProto2 {
	if m == nil {
		return (*TestAllTypesProto2)(nil)
	}
	r := new(TestAllTypesProto2)
	r.OptionalNestedMessage = m.OptionalNestedMessage.CloneVT()
	r.OptionalForeignMessage = m.OptionalForeignMessage.CloneVT()
	r.RecursiveMessage = m.RecursiveMessage.CloneVT()
	r.Data = m.Data.CloneVT()
	if rhs := m.OptionalInt32; rhs != nil {
		tmpVal := *rhs
		r.OptionalInt32 = &tmpVal
	}
	if rhs := m.OptionalInt64; rhs != nil {
		tmpVal := *rhs
		r.OptionalInt64 = &tmpVal
	}
	if rhs := m.OptionalUint32; rhs != nil {
		tmpVal := *rhs
		r.OptionalUint32 = &tmpVal
	}
	if rhs := m.OptionalUint64; rhs != nil {
		tmpVal := *rhs
		r.OptionalUint64 = &tmpVal
	}
	if rhs := m.OptionalSint32; rhs != nil {
		tmpVal := *rhs
		r.OptionalSint32 = &tmpVal
	}
	if rhs := m.OptionalSint64; rhs != nil {
		tmpVal := *rhs
		r.OptionalSint64 = &tmpVal
	}
	if rhs := m.OptionalFixed32; rhs != nil {
		tmpVal := *rhs
		r.OptionalFixed32 = &tmpVal
	}
	if rhs := m.OptionalFixed64; rhs != nil {
		tmpVal := *rhs
		r.OptionalFixed64 = &tmpVal
	}
	if rhs := m.OptionalSfixed32; rhs != nil {
		tmpVal := *rhs
		r.OptionalSfixed32 = &tmpVal
	}
	if rhs := m.OptionalSfixed64; rhs != nil {
		tmpVal := *rhs
		r.OptionalSfixed64 = &tmpVal
	}
	if rhs := m.OptionalFloat; rhs != nil {
		tmpVal := *rhs
		r.OptionalFloat = &tmpVal
	}
	if rhs := m.OptionalDouble; rhs != nil {
		tmpVal := *rhs
		r.OptionalDouble = &tmpVal
	}
	if rhs := m.OptionalBool; rhs != nil {
		tmpVal := *rhs
		r.OptionalBool = &tmpVal
	}
	if rhs := m.OptionalString; rhs != nil {
		tmpVal := *rhs
		r.OptionalString = &tmpVal
	}
	if rhs := m.OptionalBytes; rhs != nil {
		tmpBytes := make([]byte, len(rhs))
		copy(tmpBytes, rhs)
		r.OptionalBytes = tmpBytes
	}
	if rhs := m.OptionalNestedEnum; rhs != nil {
		tmpVal := *rhs
		r.OptionalNestedEnum = &tmpVal
	}
	if rhs := m.OptionalForeignEnum; rhs != nil {
		tmpVal := *rhs
		r.OptionalForeignEnum = &tmpVal
	}
	if rhs := m.OptionalStringPiece; rhs != nil {
		tmpVal := *rhs
		r.OptionalStringPiece = &tmpVal
	}
	if rhs := m.OptionalCord; rhs != nil {
		tmpVal := *rhs
		r.OptionalCord = &tmpVal
	}
	if rhs := m.RepeatedInt32; rhs != nil {
		tmpContainer := make([]int32, len(rhs))
		copy(tmpContainer, rhs)
		r.RepeatedInt32 = tmpContainer
	}
	if rhs := m.RepeatedInt64; rhs != nil {
		tmpContainer := make([]int64, len(rhs))
		copy(tmpContainer, rhs)
		r.RepeatedInt64 = tmpContainer
	}
	if rhs := m.RepeatedUint32; rhs != nil {
		tmpContainer := make([]uint32, len(rhs))
		copy(tmpContainer, rhs)
		r.RepeatedUint32 = tmpContainer
	}
	if rhs := m.RepeatedUint64; rhs != nil {
		tmpContainer := make([]uint64, len(rhs))
		copy(tmpContainer, rhs)
		r.RepeatedUint64 = tmpContainer
	}
	if rhs := m.RepeatedSint32; rhs != nil {
		tmpContainer := make([]int32, len(rhs))
		copy(tmpContainer, rhs)
		r.RepeatedSint32 = tmpContainer
	}
	if rhs := m.RepeatedSint64; rhs != nil {
		tmpContainer := make([]int64, len(rhs))
		copy(tmpContainer, rhs)
		r.RepeatedSint64 = tmpContainer
	}
	if rhs := m.RepeatedFixed32; rhs != nil {
		tmpContainer := make([]uint32, len(rhs))
		copy(tmpContainer, rhs)
		r.RepeatedFixed32 = tmpContainer
	}
	if rhs := m.RepeatedFixed64; rhs != nil {
		tmpContainer := make([]uint64, len(rhs))
		copy(tmpContainer, rhs)
		r.RepeatedFixed64 = tmpContainer
	}
	if rhs := m.RepeatedSfixed32; rhs != nil {
		tmpContainer := make([]int32, len(rhs))
		copy(tmpContainer, rhs)
		r.RepeatedSfixed32 = tmpContainer
	}
	if rhs := m.RepeatedSfixed64; rhs != nil {
		tmpContainer := make([]int64, len(rhs))
		copy(tmpContainer, rhs)
		r.RepeatedSfixed64 = tmpContainer
	}
	if rhs := m.RepeatedFloat; rhs != nil {
		tmpContainer := make([]float32, len(rhs))
		copy(tmpContainer, rhs)
		r.RepeatedFloat = tmpContainer
	}
	if rhs := m.RepeatedDouble; rhs != nil {
		tmpContainer := make([]float64, len(rhs))
		copy(tmpContainer, rhs)
		r.RepeatedDouble = tmpContainer
	}
	if rhs := m.RepeatedBool; rhs != nil {
		tmpContainer := make([]bool, len(rhs))
		copy(tmpContainer, rhs)
		r.RepeatedBool = tmpContainer
	}
	if rhs := m.RepeatedString; rhs != nil {
		tmpContainer := make([]string, len(rhs))
		copy(tmpContainer, rhs)
		r.RepeatedString = tmpContainer
	}
	if rhs := m.RepeatedBytes; rhs != nil {
		tmpContainer := make([][]byte, len(rhs))
		for k, v := range rhs {
			tmpBytes := make([]byte, len(v))
			copy(tmpBytes, v)
			tmpContainer[k] = tmpBytes
		}
		r.RepeatedBytes = tmpContainer
	}
	if rhs := m.RepeatedNestedMessage; rhs != nil {
		tmpContainer := make([]*TestAllTypesProto2_NestedMessage, len(rhs))
		for k, v := range rhs {
			tmpContainer[k] = v.CloneVT()
		}
		r.RepeatedNestedMessage = tmpContainer
	}
	if rhs := m.RepeatedForeignMessage; rhs != nil {
		tmpContainer := make([]*ForeignMessageProto2, len(rhs))
		for k, v := range rhs {
			tmpContainer[k] = v.CloneVT()
		}
		r.RepeatedForeignMessage = tmpContainer
	}
	if rhs := m.RepeatedNestedEnum; rhs != nil {
		tmpContainer := make([]TestAllTypesProto2_NestedEnum, len(rhs))
		copy(tmpContainer, rhs)
		r.RepeatedNestedEnum = tmpContainer
	}
	if rhs := m.RepeatedForeignEnum; rhs != nil {
		tmpContainer := make([]ForeignEnumProto2, len(rhs))
		copy(tmpContainer, rhs)
		r.RepeatedForeignEnum = tmpContainer
	}
".
Definition y_conformance2_2 : string :=
"	if rhs := m.RepeatedStringPiece; rhs != nil {
		tmpContainer := make([]string, len(rhs))
		copy(tmpContainer, rhs)
		r.RepeatedStringPiece = tmpContainer
	}
	if rhs := m.RepeatedCord; rhs != nil {
		tmpContainer := make([]string, len(rhs))
		copy(tmpContainer, rhs)
		r.RepeatedCord = tmpContainer
	}
	if rhs := m.PackedInt32; rhs != nil {
		tmpContainer := make([]int32, len(rhs))
		copy(tmpContainer, rhs)
		r.PackedInt32 = tmpContainer
	}
	if rhs := m.PackedInt64; rhs != nil {
		tmpContainer := make([]int64, len(rhs))
		copy(tmpContainer, rhs)
		r.PackedInt64 = tmpContainer
	}
	if rhs := m.PackedUint32; rhs != nil {
		tmpContainer := make([]uint32, len(rhs))
		copy(tmpContainer, rhs)
		r.PackedUint32 = tmpContainer
	}
	if rhs := m.PackedUint64; rhs != nil {
		tmpContainer := make([]uint64, len(rhs))
		copy(tmpContainer, rhs)
		r.PackedUint64 = tmpContainer
	}
	if rhs := m.PackedSint32; rhs != nil {
		tmpContainer := make([]int32, len(rhs))
		copy(tmpContainer, rhs)
		r.PackedSint32 = tmpContainer
	}
	if rhs := m.PackedSint64; rhs != nil {
		tmpContainer := make([]int64, len(rhs))
		copy(tmpContainer, rhs)
		r.PackedSint64 = tmpContainer
	}
	if rhs := m.PackedFixed32; rhs != nil {
		tmpContainer := make([]uint32, len(rhs))
		copy(tmpContainer, rhs)
		r.PackedFixed32 = tmpContainer
	}
	if rhs := m.PackedFixed64; rhs != nil {
		tmpContainer := make([]uint64, len(rhs))
		copy(tmpContainer, rhs)
		r.PackedFixed64 = tmpContainer
	}
	if rhs := m.PackedSfixed32; rhs != nil {
		tmpContainer := make([]int32, len(rhs))
		copy(tmpContainer, rhs)
		r.PackedSfixed32 = tmpContainer
	}
	if rhs := m.PackedSfixed64; rhs != nil {
		tmpContainer := make([]int64, len(rhs))
		copy(tmpContainer, rhs)
		r.PackedSfixed64 = tmpContainer
	}
	if rhs := m.PackedFloat; rhs != nil {
		tmpContainer := make([]float32, len(rhs))
		copy(tmpContainer, rhs)
		r.PackedFloat = tmpContainer
	}
	if rhs := m.PackedDouble; rhs != nil {
		tmpContainer := make([]float64, len(rhs))
		copy(tmpContainer, rhs)
		r.PackedDouble = tmpContainer
	}
	if rhs := m.PackedBool; rhs != nil {
		tmpContainer := make([]bool, len(rhs))
		copy(tmpContainer, rhs)
		r.PackedBool = tmpContainer
	}
	if rhs := m.PackedNestedEnum; rhs != nil {
		tmpContainer := make([]TestAllTypesProto2_NestedEnum, len(rhs))
		copy(tmpContainer, rhs)
		r.PackedNestedEnum = tmpContainer
	}
	if rhs := m.UnpackedInt32; rhs != nil {
		tmpContainer := make([]int32, len(rhs))
		copy(tmpContainer, rhs)
		r.UnpackedInt32 = tmpContainer
	}
	if rhs := m.UnpackedInt64; rhs != nil {
		tmpContainer := make([]int64, len(rhs))
		copy(tmpContainer, rhs)
		r.UnpackedInt64 = tmpContainer
	}
	if rhs := m.UnpackedUint32; rhs != nil {
		tmpContainer := make([]uint32, len(rhs))
		copy(tmpContainer, rhs)
		r.UnpackedUint32 = tmpContainer
	}
	if rhs := m.UnpackedUint64; rhs != nil {
		tmpContainer := make([]uint64, len(rhs))
		copy(tmpContainer, rhs)
		r.UnpackedUint64 = tmpContainer
	}
	if rhs := m.UnpackedSint32; rhs != nil {
		tmpContainer := make([]int32, len(rhs))
		copy(tmpContainer, rhs)
		r.UnpackedSint32 = tmpContainer
	}
	if rhs := m.UnpackedSint64; rhs != nil {
		tmpContainer := make([]int64, len(rhs))
		copy(tmpContainer, rhs)
		r.UnpackedSint64 = tmpContainer
	}
	if rhs := m.UnpackedFixed32; rhs != nil {
		tmpContainer := make([]uint32, len(rhs))
		copy(tmpContainer, rhs)
		r.UnpackedFixed32 = tmpContainer
	}
	if rhs := m.UnpackedFixed64; rhs != nil {
		tmpContainer := make([]uint64, len(rhs))
		copy(tmpContainer, rhs)
		r.UnpackedFixed64 = tmpContainer
	}
	if rhs := m.UnpackedSfixed32; rhs != nil {
		tmpContainer := make([]int32, len(rhs))
		copy(tmpContainer, rhs)
		r.UnpackedSfixed32 = tmpContainer
	}
	if rhs := m.UnpackedSfixed64; rhs != nil {
		tmpContainer := make([]int64, len(rhs))
		copy(tmpContainer, rhs)
		r.UnpackedSfixed64 = tmpContainer
	}
	if rhs := m.UnpackedFloat; rhs != nil {
		tmpContainer := make([]float32, len(rhs))
		copy(tmpContainer, rhs)
		r.UnpackedFloat = tmpContainer
	}
	if rhs := m.UnpackedDouble; rhs != nil {
		tmpContainer := make([]float64, len(rhs))
		copy(tmpContainer, rhs)
		r.UnpackedDouble = tmpContainer
	}
	if rhs := m.UnpackedBool; rhs != nil {
		tmpContainer := make([]bool, len(rhs))
		copy(tmpContainer, rhs)
		r.UnpackedBool = tmpContainer
	}
	if rhs := m.UnpackedNestedEnum; rhs != nil {
		tmpContainer := make([]TestAllTypesProto2_NestedEnum, len(rhs))
		copy(tmpContainer, rhs)
		r.UnpackedNestedEnum = tmpContainer
	}
	if rhs := m.MapInt32Int32; rhs != nil {
		tmpContainer := make(map[int32]int32, len(rhs))
		for k, v := range rhs {
			tmpContainer[k] = v
		}
		r.MapInt32Int32 = tmpContainer
	}
	if rhs := m.MapInt64Int64; rhs != nil {
		tmpContainer := make(map[int64]int64, len(rhs))
		for k, v := range rhs {
			tmpContainer[k] = v
		}
		r.MapInt64Int64 = tmpContainer
	}
	if rhs := m.MapUint32Uint32; rhs != nil {
		tmpContainer := make(map[uint32]uint32, len(rhs))
		for k, v := range rhs {
			tmpContainer[k] = v
		}
		r.MapUint32Uint32 = tmpContainer
	}
	if rhs := m.MapUint64Uint64; rhs != nil {
		tmpContainer := make(map[uint64]uint64, len(rhs))
		for k, v := range rhs {
			tmpContainer[k] = v
		}
		r.MapUint64Uint64 = tmpContainer
	}
	if rhs := m.MapSint32Sint32; rhs != nil {
		tmpContainer := make(map[int32]int32, len(rhs))
		for k, v := range rhs {
			tmpContainer[k] = v
		}
		r.MapSint32Sint32 = tmpContainer
	}
	if rhs := m.MapSint64Sint64; rhs != nil {
		tmpContainer := make(map[int64]int64, len(rhs))
		for k, v := range rhs {
			tmpContainer[k] = v
		}
		r.MapSint64Sint64 = tmpContainer
	}
	if rhs := m.MapFixed32Fixed32; rhs != nil {
		tmpContainer := make(map[uint32]uint32, len(rhs))
		for k, v := range rhs {
			tmpContainer[k] = v
		}
		r.MapFixed32Fixed32 = tmpContainer
	}
	if rhs := m.MapFixed64Fixed64; rhs != nil {
		tmpContainer := make(map[uint64]uint64, len(rhs))
		for k, v := range rhs {
			tmpContainer[k] = v
		}
		r.MapFixed64Fixed64 = tmpContainer
	}
	if rhs := m.MapSfixed32Sfixed32; rhs != nil {
		tmpContainer := make(map[int32]int32, len(rhs))
		for k, v := range rhs {
			tmpContainer[k] = v
		}
		r.MapSfixed32Sfixed32 = tmpContainer
	}
	if rhs := m.MapSfixed64Sfixed64; rhs != nil {
		tmpContainer := make(map[int64]int64, len(rhs))
		for k, v := range rhs {
			tmpContainer[k] = v
		}
		r.MapSfixed64Sfixed64 = tmpContainer
	}
	if rhs := m.MapInt32Float; rhs != nil {
		tmpContainer := make(map[int32]float32, len(rhs))
		for k, v := range rhs {
			tmpContainer[k] = v
		}
		r.MapInt32Float = tmpContainer
	}
	if rhs := m.MapInt32Double; rhs != nil {
		tmpContainer := make(map[int32]float64, len(rhs))
		for k, v := range rhs {
			tmpContainer[k] = v
		}
		r.MapInt32Double = tmpContainer
	}
	if rhs := m.MapBoolBool; rhs != nil {
		tmpContainer := make(map[bool]bool, len(rhs))
		for k, v := range rhs {
			tmpContainer[k] = v
		}
		r.MapBoolBool = tmpContainer
	}
	if rhs := m.MapStringString; rhs != nil {
		tmpContainer := make(map[string]string, len(rhs))
		for k, v := range rhs {
			tmpContainer[k] = v
		}
		r.MapStringString = tmpContainer
	}
	if rhs := m.MapStringBytes; rhs != nil {
		tmpContainer := make(map[string][]byte, len(rhs))
		for k, v := range rhs {
			tmpBytes := make([]byte, len(v))
			copy(tmpBytes, v)
			tmpContainer[k] = tmpBytes
		}
		r.MapStringBytes = tmpContainer
	}
	if rhs := m.MapStringNestedMessage; rhs != nil {
		tmpContainer := make(map[string]*TestAllTypesProto2_NestedMessage, len(rhs))
		for k, v := range rhs {
			tmpContainer[k] = v.CloneVT()
		}
		r.MapStringNestedMessage = tmpContainer
	}
	if rhs := m.MapStringForeignMessage; rhs != nil {
		tmpContainer := make(map[string]*ForeignMessageProto2, len(rhs))
		for k, v := range rhs {
			tmpContainer[k] = v.CloneVT()
		}
		r.MapStringForeignMessage = tmpContainer
	}
	if rhs := m.MapStringNestedEnum; rhs != nil {
		tmpContainer := make(map[string]TestAllTypesProto2_NestedEnum, len(rhs))
		for k, v := range rhs {
			tmpContainer[k] = v
		}
		r.MapStringNestedEnum = tmpContainer
	}
".
Definition y_conformance2_3 : string :=
"	if rhs := m.MapStringForeignEnum; rhs != nil {
		tmpContainer := make(map[string]ForeignEnumProto2, len(rhs))
		for k, v := range rhs {
			tmpContainer[k] = v
		}
		r.MapStringForeignEnum = tmpContainer
	}
	if m.OneofField != nil {
		r.OneofField = m.OneofField.(interface {
			CloneVT() isTestAllTypesProto2_OneofField
		}).CloneVT()
	}
	if rhs := m.DefaultInt32; rhs != nil {
		tmpVal := *rhs
		r.DefaultInt32 = &tmpVal
	}
	if rhs := m.DefaultInt64; rhs != nil {
		tmpVal := *rhs
		r.DefaultInt64 = &tmpVal
	}
	if rhs := m.DefaultUint32; rhs != nil {
		tmpVal := *rhs
		r.DefaultUint32 = &tmpVal
	}
	if rhs := m.DefaultUint64; rhs != nil {
		tmpVal := *rhs
		r.DefaultUint64 = &tmpVal
	}
	if rhs := m.DefaultSint32; rhs != nil {
		tmpVal := *rhs
		r.DefaultSint32 = &tmpVal
	}
	if rhs := m.DefaultSint64; rhs != nil {
		tmpVal := *rhs
		r.DefaultSint64 = &tmpVal
	}
	if rhs := m.DefaultFixed32; rhs != nil {
		tmpVal := *rhs
		r.DefaultFixed32 = &tmpVal
	}
	if rhs := m.DefaultFixed64; rhs != nil {
		tmpVal := *rhs
		r.DefaultFixed64 = &tmpVal
	}
	if rhs := m.DefaultSfixed32; rhs != nil {
		tmpVal := *rhs
		r.DefaultSfixed32 = &tmpVal
	}
	if rhs := m.DefaultSfixed64; rhs != nil {
		tmpVal := *rhs
		r.DefaultSfixed64 = &tmpVal
	}
	if rhs := m.DefaultFloat; rhs != nil {
		tmpVal := *rhs
		r.DefaultFloat = &tmpVal
	}
	if rhs := m.DefaultDouble; rhs != nil {
		tmpVal := *rhs
		r.DefaultDouble = &tmpVal
	}
	if rhs := m.DefaultBool; rhs != nil {
		tmpVal := *rhs
		r.DefaultBool = &tmpVal
	}
	if rhs := m.DefaultString; rhs != nil {
		tmpVal := *rhs
		r.DefaultString = &tmpVal
	}
	if rhs := m.DefaultBytes; rhs != nil {
		tmpBytes := make([]byte, len(rhs))
		copy(tmpBytes, rhs)
		r.DefaultBytes = tmpBytes
	}
	if rhs := m.Fieldname1; rhs != nil {
		tmpVal := *rhs
		r.Fieldname1 = &tmpVal
	}
	if rhs := m.FieldName2; rhs != nil {
		tmpVal := *rhs
		r.FieldName2 = &tmpVal
	}
	if rhs := m.XFieldName3; rhs != nil {
		tmpVal := *rhs
		r.XFieldName3 = &tmpVal
	}
	if rhs := m.Field_Name4_; rhs != nil {
		tmpVal := *rhs
		r.Field_Name4_ = &tmpVal
	}
	if rhs := m.Field0Name5; rhs != nil {
		tmpVal := *rhs
		r.Field0Name5 = &tmpVal
	}
	if rhs := m.Field_0Name6; rhs != nil {
		tmpVal := *rhs
		r.Field_0Name6 = &tmpVal
	}
	if rhs := m.FieldName7; rhs != nil {
		tmpVal := *rhs
		r.FieldName7 = &tmpVal
	}
	if rhs := m.FieldName8; rhs != nil {
		tmpVal := *rhs
		r.FieldName8 = &tmpVal
	}
	if rhs := m.Field_Name9; rhs != nil {
		tmpVal := *rhs
		r.Field_Name9 = &tmpVal
	}
	if rhs := m.Field_Name10; rhs != nil {
		tmpVal := *rhs
		r.Field_Name10 = &tmpVal
	}
	if rhs := m.FIELD_NAME11; rhs != nil {
		tmpVal := *rhs
		r.FIELD_NAME11 = &tmpVal
	}
	if rhs := m.FIELDName12; rhs != nil {
		tmpVal := *rhs
		r.FIELDName12 = &tmpVal
	}
	if rhs := m.XFieldName13; rhs != nil {
		tmpVal := *rhs
		r.XFieldName13 = &tmpVal
	}
	if rhs := m.X_FieldName14; rhs != nil {
		tmpVal := *rhs
		r.X_FieldName14 = &tmpVal
	}
	if rhs := m.Field_Name15; rhs != nil {
		tmpVal := *rhs
		r.Field_Name15 = &tmpVal
	}
	if rhs := m.Field__Name16; rhs != nil {
		tmpVal := *rhs
		r.Field__Name16 = &tmpVal
	}
	if rhs := m.FieldName17__; rhs != nil {
		tmpVal := *rhs
		r.FieldName17__ = &tmpVal
	}
	if rhs := m.FieldName18__; rhs != nil {
		tmpVal := *rhs
		r.FieldName18__ = &tmpVal
	}
	if len(m.unknownFields) > 0 {
		r.unknownFields = make([]byte, len(m.unknownFields))
		copy(r.unknownFields, m.unknownFields)
	}
	return r
}
func (m *TestAllTypesProto2) CloneMessageVT() proto.Message {
	return m.CloneVT()
}
func (m *TestAllTypesProto2_OneofUint32) CloneVT() isTestAllTypesProto2_OneofField {
	if m == nil {
		return (*TestAllTypesProto2_OneofUint32)(nil)
	}
	r := new(TestAllTypesProto2_OneofUint32)
	r.OneofUint32 = m.OneofUint32
	return r
}
func (m *TestAllTypesProto2_OneofNestedMessage) CloneVT() isTestAllTypesProto2_OneofField {
	if m == nil {
		return (*TestAllTypesProto2_OneofNestedMessage)(nil)
	}
	r := new(TestAllTypesProto2_OneofNestedMessage)
	r.OneofNestedMessage = m.OneofNestedMessage.CloneVT()
	return r
}
func (m *TestAllTypesProto2_OneofString) CloneVT() isTestAllTypesProto2_OneofField {
	if m == nil {
		return (*TestAllTypesProto2_OneofString)(nil)
	}
	r := new(TestAllTypesProto2_OneofString)
	r.OneofString = m.OneofString
	return r
}
func (m *TestAllTypesProto2_OneofBytes) CloneVT() isTestAllTypesProto2_OneofField {
	if m == nil {
		return (*TestAllTypesProto2_OneofBytes)(nil)
	}
	r := new(TestAllTypesProto2_OneofBytes)
	if rhs := m.OneofBytes; rhs != nil {
		tmpBytes := make([]byte, len(rhs))
		copy(tmpBytes, rhs)
		r.OneofBytes = tmpBytes
	}
	return r
}
func (m *TestAllTypesProto2_OneofBool) CloneVT() isTestAllTypesProto2_OneofField {
	if m == nil {
		return (*TestAllTypesProto2_OneofBool)(nil)
	}
	r := new(TestAllTypesProto2_OneofBool)
	r.OneofBool = m.OneofBool
	return r
}
func (m *TestAllTypesProto2_OneofUint64) CloneVT() isTestAllTypesProto2_OneofField {
	if m == nil {
		return (*TestAllTypesProto2_OneofUint64)(nil)
	}
	r := new(TestAllTypesProto2_OneofUint64)
	r.OneofUint64 = m.OneofUint64
	return r
}
func (m *TestAllTypesProto2_OneofFloat) CloneVT() isTestAllTypesProto2_OneofField {
	if m == nil {
		return (*TestAllTypesProto2_OneofFloat)(nil)
	}
	r := new(TestAllTypesProto2_OneofFloat)
	r.OneofFloat = m.OneofFloat
	return r
}
func (m *TestAllTypesProto2_OneofDouble) CloneVT() isTestAllTypesProto2_OneofField {
	if m == nil {
		return (*TestAllTypesProto2_OneofDouble)(nil)
	}
	r := new(TestAllTypesProto2_OneofDouble)
	r.OneofDouble = m.OneofDouble
	return r
}
func (m *TestAllTypesProto2_OneofEnum) CloneVT() isTestAllTypesProto2_OneofField {
	if m == nil {
		return (*TestAllTypesProto2_OneofEnum)(nil)
	}
	r := new(TestAllTypesProto2_OneofEnum)
	r.OneofEnum = m.OneofEnum
	return r
}
func (m *ForeignMessageProto2) CloneVT() *ForeignMessageProto2 {
	if m == nil {
		return (*ForeignMessageProto2)(nil)
	}
	r := new(ForeignMessageProto2)
	if rhs := m.C; rhs != nil {
		tmpVal := *rhs
		r.C = &tmpVal
	}
	if len(m.unknownFields) > 0 {
		r.unknownFields = make([]byte, len(m.unknownFields))
		copy(r.unknownFields, m.unknownFields)
	}
	return r
}
func (m *ForeignMessageProto2) CloneMessageVT() proto.Message {
	return m.CloneVT()
}
func (m *UnknownToTestAllTypes_OptionalGroup) CloneVT() *UnknownToTestAllTypes_OptionalGroup {
	if m == nil {
		return (*UnknownToTestAllTypes_OptionalGroup)(nil)
	}
	r := new(UnknownToTestAllTypes_OptionalGroup)
	if rhs := m.A; rhs != nil {
		tmpVal := *rhs
		r.A = &tmpVal
	}
	if len(m.unknownFields) > 0 {
		r.unknownFields = make([]byte, len(m.unknownFields))
		copy(r.unknownFields, m.unknownFields)
	}
	return r
}
func (m *UnknownToTestAllTypes_OptionalGroup) CloneMessageVT() proto.Message {
	return m.CloneVT()
}
func (m *UnknownToTestAllTypes) CloneVT() *UnknownToTestAllTypes {
	if m == nil {
		return (*UnknownToTestAllTypes)(nil)
	}
	r := new(UnknownToTestAllTypes)
	r.NestedMessage = m.NestedMessage.CloneVT()
	r.Optionalgroup = m.Optionalgroup.CloneVT()
	if rhs := m.OptionalInt32; rhs != nil {
		tmpVal := *rhs
		r.OptionalInt32 = &tmpVal
	}
	if rhs := m.OptionalString; rhs != nil {
		tmpVal := *rhs
		r.OptionalString = &tmpVal
	}
	if rhs := m.OptionalBool; rhs != nil {
		tmpVal := *rhs
		r.OptionalBool = &tmpVal
	}
	if rhs := m.RepeatedInt32; rhs != nil {
		tmpContainer := make([]int32, len(rhs))
		copy(tmpContainer, rhs)
		r.RepeatedInt32 = tmpContainer
	}
	if len(m.unknownFields) > 0 {
		r.unknownFields = make([]byte, len(m.unknownFields))
		copy(r.unknownFields, m.unknownFields)
	}
	return r
}
func (m *UnknownToTestAllTypes) CloneMessageVT() proto.Message {
	return m.CloneVT()
}
func (m *NullHypothesisProto2) CloneVT() *NullHypothesisProto2 {
	if m == nil {
		return (*NullHypothesisProto2)(nil)
	}
	r := new(NullHypothesisProto2)
	if len(m.unknownFields) > 0 {
		r.unknownFields = make([]byte, len(m.unknownFields))
		copy(r.unknownFields, m.unknownFields)
	}
	return r
}
func (m *NullHypothesisProto2) CloneMessageVT() proto.Message {
	return m.CloneVT()
}
".
Definition y_conformance2_4 : string :=
"func (m *EnumOnlyProto2) CloneVT() *EnumOnlyProto2 {
	if m == nil {
		return (*EnumOnlyProto2)(nil)
	}
	r := new(EnumOnlyProto2)
	if len(m.unknownFields) > 0 {
		r.unknownFields = make([]byte, len(m.unknownFields))
		copy(r.unknownFields, m.unknownFields)
	}
	return r
}
func (m *EnumOnlyProto2) CloneMessageVT() proto.Message {
	return m.CloneVT()
}
func (m *OneStringProto2) CloneVT() *OneStringProto2 {
	if m == nil {
		return (*OneStringProto2)(nil)
	}
	r := new(OneStringProto2)
	if rhs := m.Data; rhs != nil {
		tmpVal := *rhs
		r.Data = &tmpVal
	}
	if len(m.unknownFields) > 0 {
		r.unknownFields = make([]byte, len(m.unknownFields))
		copy(r.unknownFields, m.unknownFields)
	}
	return r
}
func (m *OneStringProto2) CloneMessageVT() proto.Message {
	return m.CloneVT()
}
".
Definition y_conformance2 : list string := [y_conformance2_1; y_conformance2_2; y_conformance2_3; y_conformance2_4].

(** /repo/conformance/internal/conformance/test_messages_proto3_vtproto.pb.go *)
Definition y_conformance3_1 : string :=
"func (m *TestAllTypesProto3_NestedMessage) CloneVT() *TestAllTypesProto3_NestedMessage {
	if m == nil {
		return (*TestAllTypesProto3_NestedMessage)(nil)
	}
	r := new(TestAllTypesProto3_NestedMessage)
	r.A = m.A
	r.Corecursive = m.Corecursive.CloneVT()
	if len(m.unknownFields) > 0 {
		r.unknownFields = make([]byte, len(m.unknownFields))
		copy(r.unknownFields, m.unknownFields)
	}
	return r
}
func (m *TestAllTypesProto3_NestedMessage) CloneMessageVT() proto.Message {
	return m.CloneVT()
}
func (m *TestAllTypesProto3) CloneVT() *TestAllTypesProto3 {
	if m == nil {
		return (*TestAllTypesProto3)(nil)
	}
	r := new(TestAllTypesProto3)
	r.OptionalInt32 = m.OptionalInt32
	r.OptionalInt64 = m.OptionalInt64
	r.OptionalUint32 = m.OptionalUint32
	r.OptionalUint64 = m.OptionalUint64
	r.OptionalSint32 = m.OptionalSint32
	r.OptionalSint64 = m.OptionalSint64
	r.OptionalFixed32 = m.OptionalFixed32
	r.OptionalFixed64 = m.OptionalFixed64
	r.OptionalSfixed32 = m.OptionalSfixed32
	r.OptionalSfixed64 = m.OptionalSfixed64
	r.OptionalFloat = m.OptionalFloat
	r.OptionalDouble = m.OptionalDouble
	r.OptionalBool = m.OptionalBool
	r.OptionalString = m.OptionalString
	r.OptionalNestedMessage = m.OptionalNestedMessage.CloneVT()
	r.OptionalForeignMessage = m.OptionalForeignMessage.CloneVT()
	r.OptionalNestedEnum = m.OptionalNestedEnum
	r.OptionalForeignEnum = m.OptionalForeignEnum
	r.OptionalAliasedEnum = m.OptionalAliasedEnum
	r.OptionalStringPiece = m.OptionalStringPiece
	r.OptionalCord = m.OptionalCord
	r.RecursiveMessage = m.RecursiveMessage.CloneVT()
	r.OptionalBoolWrapper = (*wrapperspb.BoolValue)((*wrapperspb1.BoolValue)(m.OptionalBoolWrapper).CloneVT())
	r.OptionalInt32Wrapper = (*wrapperspb.Int32Value)((*wrapperspb1.Int32Value)(m.OptionalInt32Wrapper).CloneVT())
	r.OptionalInt64Wrapper = (*wrapperspb.Int64Value)((*wrapperspb1.Int64Value)(m.OptionalInt64Wrapper).CloneVT())
	r.OptionalUint32Wrapper = (*wrapperspb.UInt32Value)((*wrapperspb1.UInt32Value)(m.OptionalUint32Wrapper).CloneVT())
	r.OptionalUint64Wrapper = (*wrapperspb.UInt64Value)((*wrapperspb1.UInt64Value)(m.OptionalUint64Wrapper).CloneVT())
	r.OptionalFloatWrapper = (*wrapperspb.FloatValue)((*wrapperspb1.FloatValue)(m.OptionalFloatWrapper).CloneVT())
	r.OptionalDoubleWrapper = (*wrapperspb.DoubleValue)((*wrapperspb1.DoubleValue)(m.OptionalDoubleWrapper).CloneVT())
	r.OptionalStringWrapper = (*wrapperspb.StringValue)((*wrapperspb1.StringValue)(m.OptionalStringWrapper).CloneVT())
	r.OptionalBytesWrapper = (*wrapperspb.BytesValue)((*wrapperspb1.BytesValue)(m.OptionalBytesWrapper).CloneVT())
	r.OptionalDuration = (*durationpb.Duration)((*durationpb1.Duration)(m.OptionalDuration).CloneVT())
	r.OptionalTimestamp = (*timestamppb.Timestamp)((*timestamppb1.Timestamp)(m.OptionalTimestamp).CloneVT())
	r.OptionalFieldMask = (*fieldmaskpb.FieldMask)((*fieldmaskpb1.FieldMask)(m.OptionalFieldMask).CloneVT())
	r.OptionalStruct = (*structpb.Struct)((*structpb1.Struct)(m.OptionalStruct).CloneVT())
	r.OptionalAny = (*anypb.Any)((*anypb1.Any)(m.OptionalAny).CloneVT())
	r.OptionalValue = (*structpb.Value)((*structpb1.Value)(m.OptionalValue).CloneVT())
	r.OptionalNullValue = m.OptionalNullValue
	r.Fieldname1 = m.Fieldname1
	r.FieldName2 = m.FieldName2
	r.XFieldName3 = m.XFieldName3
	r.Field_Name4_ = m.Field_Name4_
	r.Field0Name5 = m.Field0Name5
	r.Field_0Name6 = m.Field_0Name6
	r.FieldName7 = m.FieldName7
	r.FieldName8 = m.FieldName8
	r.Field_Name9 = m.Field_Name9
	r.Field_Name10 = m.Field_Name10
	r.FIELD_NAME11 = m.FIELD_NAME11
	r.FIELDName12 = m.FIELDName12
	r.XFieldName13 = m.XFieldName13
	r.X_FieldName14 = m.X_FieldName14
	r.Field_Name15 = m.Field_Name15
	r.Field__Name16 = m.Field__Name16
	r.FieldName17__ = m.FieldName17__
	r.FieldName18__ = m.FieldName18__
	if rhs := m.OptionalBytes; rhs != nil {
		tmpBytes := make([]byte, len(rhs))
		copy(tmpBytes, rhs)
		r.OptionalBytes = tmpBytes
	}
	if rhs := m.RepeatedInt32; rhs != nil {
		tmpContainer := make([]int32, len(rhs))
		copy(tmpContainer, rhs)
		r.RepeatedInt32 = tmpContainer
	}
	if rhs := m.RepeatedInt64; rhs != nil {
		tmpContainer := make([]int64, len(rhs))
		copy(tmpContainer, rhs)
		r.RepeatedInt64 = tmpContainer
	}
	if rhs := m.RepeatedUint32; rhs != nil {
		tmpContainer := make([]uint32, len(rhs))
		copy(tmpContainer, rhs)
		r.RepeatedUint32 = tmpContainer
	}
	if rhs := m.RepeatedUint64; rhs != nil {
		tmpContainer := make([]uint64, len(rhs))
		copy(tmpContainer, rhs)
		r.RepeatedUint64 = tmpContainer
	}
	if rhs := m.RepeatedSint32; rhs != nil {
		tmpContainer := make([]int32, len(rhs))
		copy(tmpContainer, rhs)
		r.RepeatedSint32 = tmpContainer
	}
	if rhs := m.RepeatedSint64; rhs != nil {
		tmpContainer := make([]int64, len(rhs))
		copy(tmpContainer, rhs)
		r.RepeatedSint64 = tmpContainer
	}
	if rhs := m.RepeatedFixed32; rhs != nil {
		tmpContainer := make([]uint32, len(rhs))
		copy(tmpContainer, rhs)
		r.RepeatedFixed32 = tmpContainer
	}
	if rhs := m.RepeatedFixed64; rhs != nil {
		tmpContainer := make([]uint64, len(rhs))
		copy(tmpContainer, rhs)
		r.RepeatedFixed64 = tmpContainer
	}
	if rhs := m.RepeatedSfixed32; rhs != nil {
		tmpContainer := make([]int32, len(rhs))
		copy(tmpContainer, rhs)
		r.RepeatedSfixed32 = tmpContainer
	}
	if rhs := m.RepeatedSfixed64; rhs != nil {
		tmpContainer := make([]int64, len(rhs))
		copy(tmpContainer, rhs)
		r.RepeatedSfixed64 = tmpContainer
	}
	if rhs := m.RepeatedFloat; rhs != nil {
		tmpContainer := make([]float32, len(rhs))
		copy(tmpContainer, rhs)
		r.RepeatedFloat = tmpContainer
	}
	if rhs := m.RepeatedDouble; rhs != nil {
		tmpContainer := make([]float64, len(rhs))
		copy(tmpContainer, rhs)
		r.RepeatedDouble = tmpContainer
	}
	if rhs := m.RepeatedBool; rhs != nil {
		tmpContainer := make([]bool, len(rhs))
		copy(tmpContainer, rhs)
		r.RepeatedBool = tmpContainer
	}
	if rhs := m.RepeatedString; rhs != nil {
		tmpContainer := make([]string, len(rhs))
		copy(tmpContainer, rhs)
		r.RepeatedString = tmpContainer
	}
	if rhs := m.RepeatedBytes; rhs != nil {
		tmpContainer := make([][]byte, len(rhs))
		for k, v := range rhs {
			tmpBytes := make([]byte, len(v))
			copy(tmpBytes, v)
			tmpContainer[k] = tmpBytes
		}
		r.RepeatedBytes = tmpContainer
	}
	if rhs := m.RepeatedNestedMessage; rhs != nil {
		tmpContainer := make([]*TestAllTypesProto3_NestedMessage, len(rhs))
		for k, v := range rhs {
			tmpContainer[k] = v.CloneVT()
		}
		r.RepeatedNestedMessage = tmpContainer
	}
	if rhs := m.RepeatedForeignMessage; rhs != nil {
		tmpContainer := make([]*ForeignMessage, len(rhs))
		for k, v := range rhs {
			tmpContainer[k] = v.CloneVT()
		}
		r.RepeatedForeignMessage = tmpContainer
	}
	if rhs := m.RepeatedNestedEnum; rhs != nil {
		tmpContainer := make([]TestAllTypesProto3_NestedEnum, len(rhs))
		copy(tmpContainer, rhs)
		r.RepeatedNestedEnum = tmpContainer
	}
	if rhs := m.RepeatedForeignEnum; rhs != nil {
		tmpContainer := make([]ForeignEnum, len(rhs))
		copy(tmpContainer, rhs)
		r.RepeatedForeignEnum = tmpContainer
	}
	if rhs := m.RepeatedStringPiece; rhs != nil {
		tmpContainer := make([]string, len(rhs))
		copy(tmpContainer, rhs)
		r.RepeatedStringPiece = tmpContainer
	}
	if rhs := m.RepeatedCord; rhs != nil {
		tmpContainer := make([]string, len(rhs))
		copy(tmpContainer, rhs)
		r.RepeatedCord = tmpContainer
	}
	if rhs := m.PackedInt32; rhs != nil {
		tmpContainer := make([]int32, len(rhs))
		copy(tmpContainer, rhs)
		r.PackedInt32 = tmpContainer
	}
	if rhs := m.PackedInt64; rhs != nil {
		tmpContainer := make([]int64, len(rhs))
		copy(tmpContainer, rhs)
		r.PackedInt64 = tmpContainer
	}
	if rhs := m.PackedUint32; rhs != nil {
		tmpContainer := make([]uint32, len(rhs))
		copy(tmpContainer, rhs)
		r.PackedUint32 = tmpContainer
	}
	if rhs := m.PackedUint64; rhs != nil {
		tmpContainer := make([]uint64, len(rhs))
		copy(tmpContainer, rhs)
		r.PackedUint64 = tmpContainer
	}
	if rhs := m.PackedSint32; rhs != nil {
		tmpContainer := make([]int32, len(rhs))
		copy(tmpContainer, rhs)
		r.PackedSint32 = tmpContainer
	}
".
Definition y_conformance3_2 : string :=
"	if rhs := m.PackedSint64; rhs != nil {
		tmpContainer := make([]int64, len(rhs))
		copy(tmpContainer, rhs)
		r.PackedSint64 = tmpContainer
	}
	if rhs := m.PackedFixed32; rhs != nil {
		tmpContainer := make([]uint32, len(rhs))
		copy(tmpContainer, rhs)
		r.PackedFixed32 = tmpContainer
	}
	if rhs := m.PackedFixed64; rhs != nil {
		tmpContainer := make([]uint64, len(rhs))
		copy(tmpContainer, rhs)
		r.PackedFixed64 = tmpContainer
	}
	if rhs := m.PackedSfixed32; rhs != nil {
		tmpContainer := make([]int32, len(rhs))
		copy(tmpContainer, rhs)
		r.PackedSfixed32 = tmpContainer
	}
	if rhs := m.PackedSfixed64; rhs != nil {
		tmpContainer := make([]int64, len(rhs))
		copy(tmpContainer, rhs)
		r.PackedSfixed64 = tmpContainer
	}
	if rhs := m.PackedFloat; rhs != nil {
		tmpContainer := make([]float32, len(rhs))
		copy(tmpContainer, rhs)
		r.PackedFloat = tmpContainer
	}
	if rhs := m.PackedDouble; rhs != nil {
		tmpContainer := make([]float64, len(rhs))
		copy(tmpContainer, rhs)
		r.PackedDouble = tmpContainer
	}
	if rhs := m.PackedBool; rhs != nil {
		tmpContainer := make([]bool, len(rhs))
		copy(tmpContainer, rhs)
		r.PackedBool = tmpContainer
	}
	if rhs := m.PackedNestedEnum; rhs != nil {
		tmpContainer := make([]TestAllTypesProto3_NestedEnum, len(rhs))
		copy(tmpContainer, rhs)
		r.PackedNestedEnum = tmpContainer
	}
	if rhs := m.UnpackedInt32; rhs != nil {
		tmpContainer := make([]int32, len(rhs))
		copy(tmpContainer, rhs)
		r.UnpackedInt32 = tmpContainer
	}
	if rhs := m.UnpackedInt64; rhs != nil {
		tmpContainer := make([]int64, len(rhs))
		copy(tmpContainer, rhs)
		r.UnpackedInt64 = tmpContainer
	}
	if rhs := m.UnpackedUint32; rhs != nil {
		tmpContainer := make([]uint32, len(rhs))
		copy(tmpContainer, rhs)
		r.UnpackedUint32 = tmpContainer
	}
	if rhs := m.UnpackedUint64; rhs != nil {
		tmpContainer := make([]uint64, len(rhs))
		copy(tmpContainer, rhs)
		r.UnpackedUint64 = tmpContainer
	}
	if rhs := m.UnpackedSint32; rhs != nil {
		tmpContainer := make([]int32, len(rhs))
		copy(tmpContainer, rhs)
		r.UnpackedSint32 = tmpContainer
	}
	if rhs := m.UnpackedSint64; rhs != nil {
		tmpContainer := make([]int64, len(rhs))
		copy(tmpContainer, rhs)
		r.UnpackedSint64 = tmpContainer
	}
	if rhs := m.UnpackedFixed32; rhs != nil {
		tmpContainer := make([]uint32, len(rhs))
		copy(tmpContainer, rhs)
		r.UnpackedFixed32 = tmpContainer
	}
	if rhs := m.UnpackedFixed64; rhs != nil {
		tmpContainer := make([]uint64, len(rhs))
		copy(tmpContainer, rhs)
		r.UnpackedFixed64 = tmpContainer
	}
	if rhs := m.UnpackedSfixed32; rhs != nil {
		tmpContainer := make([]int32, len(rhs))
		copy(tmpContainer, rhs)
		r.UnpackedSfixed32 = tmpContainer
	}
	if rhs := m.UnpackedSfixed64; rhs != nil {
		tmpContainer := make([]int64, len(rhs))
		copy(tmpContainer, rhs)
		r.UnpackedSfixed64 = tmpContainer
	}
	if rhs := m.UnpackedFloat; rhs != nil {
		tmpContainer := make([]float32, len(rhs))
		copy(tmpContainer, rhs)
		r.UnpackedFloat = tmpContainer
	}
	if rhs := m.UnpackedDouble; rhs != nil {
		tmpContainer := make([]float64, len(rhs))
		copy(tmpContainer, rhs)
		r.UnpackedDouble = tmpContainer
	}
	if rhs := m.UnpackedBool; rhs != nil {
		tmpContainer := make([]bool, len(rhs))
		copy(tmpContainer, rhs)
		r.UnpackedBool = tmpContainer
	}
	if rhs := m.UnpackedNestedEnum; rhs != nil {
		tmpContainer := make([]TestAllTypesProto3_NestedEnum, len(rhs))
		copy(tmpContainer, rhs)
		r.UnpackedNestedEnum = tmpContainer
	}
	if rhs := m.MapInt32Int32; rhs != nil {
		tmpContainer := make(map[int32]int32, len(rhs))
		for k, v := range rhs {
			tmpContainer[k] = v
		}
		r.MapInt32Int32 = tmpContainer
	}
	if rhs := m.MapInt64Int64; rhs != nil {
		tmpContainer := make(map[int64]int64, len(rhs))
		for k, v := range rhs {
			tmpContainer[k] = v
		}
		r.MapInt64Int64 = tmpContainer
	}
	if rhs := m.MapUint32Uint32; rhs != nil {
		tmpContainer := make(map[uint32]uint32, len(rhs))
		for k, v := range rhs {
			tmpContainer[k] = v
		}
		r.MapUint32Uint32 = tmpContainer
	}
	if rhs := m.MapUint64Uint64; rhs != nil {
		tmpContainer := make(map[uint64]uint64, len(rhs))
		for k, v := range rhs {
			tmpContainer[k] = v
		}
		r.MapUint64Uint64 = tmpContainer
	}
	if rhs := m.MapSint32Sint32; rhs != nil {
		tmpContainer := make(map[int32]int32, len(rhs))
		for k, v := range rhs {
			tmpContainer[k] = v
		}
		r.MapSint32Sint32 = tmpContainer
	}
	if rhs := m.MapSint64Sint64; rhs != nil {
		tmpContainer := make(map[int64]int64, len(rhs))
		for k, v := range rhs {
			tmpContainer[k] = v
		}
		r.MapSint64Sint64 = tmpContainer
	}
	if rhs := m.MapFixed32Fixed32; rhs != nil {
		tmpContainer := make(map[uint32]uint32, len(rhs))
		for k, v := range rhs {
			tmpContainer[k] = v
		}
		r.MapFixed32Fixed32 = tmpContainer
	}
	if rhs := m.MapFixed64Fixed64; rhs != nil {
		tmpContainer := make(map[uint64]uint64, len(rhs))
		for k, v := range rhs {
			tmpContainer[k] = v
		}
		r.MapFixed64Fixed64 = tmpContainer
	}
	if rhs := m.MapSfixed32Sfixed32; rhs != nil {
		tmpContainer := make(map[int32]int32, len(rhs))
		for k, v := range rhs {
			tmpContainer[k] = v
		}
		r.MapSfixed32Sfixed32 = tmpContainer
	}
	if rhs := m.MapSfixed64Sfixed64; rhs != nil {
		tmpContainer := make(map[int64]int64, len(rhs))
		for k, v := range rhs {
			tmpContainer[k] = v
		}
		r.MapSfixed64Sfixed64 = tmpContainer
	}
	if rhs := m.MapInt32Float; rhs != nil {
		tmpContainer := make(map[int32]float32, len(rhs))
		for k, v := range rhs {
			tmpContainer[k] = v
		}
		r.MapInt32Float = tmpContainer
	}
	if rhs := m.MapInt32Double; rhs != nil {
		tmpContainer := make(map[int32]float64, len(rhs))
		for k, v := range rhs {
			tmpContainer[k] = v
		}
		r.MapInt32Double = tmpContainer
	}
	if rhs := m.MapBoolBool; rhs != nil {
		tmpContainer := make(map[bool]bool, len(rhs))
		for k, v := range rhs {
			tmpContainer[k] = v
		}
		r.MapBoolBool = tmpContainer
	}
	if rhs := m.MapStringString; rhs != nil {
		tmpContainer := make(map[string]string, len(rhs))
		for k, v := range rhs {
			tmpContainer[k] = v
		}
		r.MapStringString = tmpContainer
	}
	if rhs := m.MapStringBytes; rhs != nil {
		tmpContainer := make(map[string][]byte, len(rhs))
		for k, v := range rhs {
			tmpBytes := make([]byte, len(v))
			copy(tmpBytes, v)
			tmpContainer[k] = tmpBytes
		}
		r.MapStringBytes = tmpContainer
	}
	if rhs := m.MapStringNestedMessage; rhs != nil {
		tmpContainer := make(map[string]*TestAllTypesProto3_NestedMessage, len(rhs))
		for k, v := range rhs {
			tmpContainer[k] = v.CloneVT()
		}
		r.MapStringNestedMessage = tmpContainer
	}
	if rhs := m.MapStringForeignMessage; rhs != nil {
		tmpContainer := make(map[string]*ForeignMessage, len(rhs))
		for k, v := range rhs {
			tmpContainer[k] = v.CloneVT()
		}
		r.MapStringForeignMessage = tmpContainer
	}
	if rhs := m.MapStringNestedEnum; rhs != nil {
		tmpContainer := make(map[string]TestAllTypesProto3_NestedEnum, len(rhs))
		for k, v := range rhs {
			tmpContainer[k] = v
		}
		r.MapStringNestedEnum = tmpContainer
	}
	if rhs := m.MapStringForeignEnum; rhs != nil {
		tmpContainer := make(map[string]ForeignEnum, len(rhs))
		for k, v := range rhs {
			tmpContainer[k] = v
		}
		r.MapStringForeignEnum = tmpContainer
	}
	if m.OneofField != nil {
		r.OneofField = m.OneofField.(interface {
			CloneVT() isTestAllTypesProto3_OneofField
		}).CloneVT()
	}
	if rhs := m.RepeatedBoolWrapper; rhs != nil {
		tmpContainer := make([]*wrapperspb.BoolValue, len(rhs))
		for k, v := range rhs {
			tmpContainer[k] = (*wrapperspb.BoolValue)((*wrapperspb1.BoolValue)(v).CloneVT())
		}
		r.RepeatedBoolWrapper = tmpContainer
	}
	if rhs := m.RepeatedInt32Wrapper; rhs != nil {
		tmpContainer := make([]*wrapperspb.Int32Value, len(rhs))
		for k, v := range rhs {
			tmpContainer[k] = (*wrapperspb.Int32Value)((*wrapperspb1.Int32Value)(v).CloneVT())
		}
		r.RepeatedInt32Wrapper = tmpContainer
	}
	if rhs := m.RepeatedInt64Wrapper; rhs != nil {
		tmpContainer := make([]*wrapperspb.Int64Value, len(rhs))
		for k, v := range rhs {
".
Definition y_conformance3_3 : string :=
"			tmpContainer[k] = (*wrapperspb.Int64Value)((*wrapperspb1.Int64Value)(v).CloneVT())
		}
		r.RepeatedInt64Wrapper = tmpContainer
	}
	if rhs := m.RepeatedUint32Wrapper; rhs != nil {
		tmpContainer := make([]*wrapperspb.UInt32Value, len(rhs))
		for k, v := range rhs {
			tmpContainer[k] = (*wrapperspb.UInt32Value)((*wrapperspb1.UInt32Value)(v).CloneVT())
		}
		r.RepeatedUint32Wrapper = tmpContainer
	}
	if rhs := m.RepeatedUint64Wrapper; rhs != nil {
		tmpContainer := make([]*wrapperspb.UInt64Value, len(rhs))
		for k, v := range rhs {
			tmpContainer[k] = (*wrapperspb.UInt64Value)((*wrapperspb1.UInt64Value)(v).CloneVT())
		}
		r.RepeatedUint64Wrapper = tmpContainer
	}
	if rhs := m.RepeatedFloatWrapper; rhs != nil {
		tmpContainer := make([]*wrapperspb.FloatValue, len(rhs))
		for k, v := range rhs {
			tmpContainer[k] = (*wrapperspb.FloatValue)((*wrapperspb1.FloatValue)(v).CloneVT())
		}
		r.RepeatedFloatWrapper = tmpContainer
	}
	if rhs := m.RepeatedDoubleWrapper; rhs != nil {
		tmpContainer := make([]*wrapperspb.DoubleValue, len(rhs))
		for k, v := range rhs {
			tmpContainer[k] = (*wrapperspb.DoubleValue)((*wrapperspb1.DoubleValue)(v).CloneVT())
		}
		r.RepeatedDoubleWrapper = tmpContainer
	}
	if rhs := m.RepeatedStringWrapper; rhs != nil {
		tmpContainer := make([]*wrapperspb.StringValue, len(rhs))
		for k, v := range rhs {
			tmpContainer[k] = (*wrapperspb.StringValue)((*wrapperspb1.StringValue)(v).CloneVT())
		}
		r.RepeatedStringWrapper = tmpContainer
	}
	if rhs := m.RepeatedBytesWrapper; rhs != nil {
		tmpContainer := make([]*wrapperspb.BytesValue, len(rhs))
		for k, v := range rhs {
			tmpContainer[k] = (*wrapperspb.BytesValue)((*wrapperspb1.BytesValue)(v).CloneVT())
		}
		r.RepeatedBytesWrapper = tmpContainer
	}
	if rhs := m.RepeatedDuration; rhs != nil {
		tmpContainer := make([]*durationpb.Duration, len(rhs))
		for k, v := range rhs {
			tmpContainer[k] = (*durationpb.Duration)((*durationpb1.Duration)(v).CloneVT())
		}
		r.RepeatedDuration = tmpContainer
	}
	if rhs := m.RepeatedTimestamp; rhs != nil {
		tmpContainer := make([]*timestamppb.Timestamp, len(rhs))
		for k, v := range rhs {
			tmpContainer[k] = (*timestamppb.Timestamp)((*timestamppb1.Timestamp)(v).CloneVT())
		}
		r.RepeatedTimestamp = tmpContainer
	}
	if rhs := m.RepeatedFieldmask; rhs != nil {
		tmpContainer := make([]*fieldmaskpb.FieldMask, len(rhs))
		for k, v := range rhs {
			tmpContainer[k] = (*fieldmaskpb.FieldMask)((*fieldmaskpb1.FieldMask)(v).CloneVT())
		}
		r.RepeatedFieldmask = tmpContainer
	}
	if rhs := m.RepeatedStruct; rhs != nil {
		tmpContainer := make([]*structpb.Struct, len(rhs))
		for k, v := range rhs {
			tmpContainer[k] = (*structpb.Struct)((*structpb1.Struct)(v).CloneVT())
		}
		r.RepeatedStruct = tmpContainer
	}
	if rhs := m.RepeatedAny; rhs != nil {
		tmpContainer := make([]*anypb.Any, len(rhs))
		for k, v := range rhs {
			tmpContainer[k] = (*anypb.Any)((*anypb1.Any)(v).CloneVT())
		}
		r.RepeatedAny = tmpContainer
	}
	if rhs := m.RepeatedValue; rhs != nil {
		tmpContainer := make([]*structpb.Value, len(rhs))
		for k, v := range rhs {
			tmpContainer[k] = (*structpb.Value)((*structpb1.Value)(v).CloneVT())
		}
		r.RepeatedValue = tmpContainer
	}
	if rhs := m.RepeatedListValue; rhs != nil {
		tmpContainer := make([]*structpb.ListValue, len(rhs))
		for k, v := range rhs {
			tmpContainer[k] = (*structpb.ListValue)((*structpb1.ListValue)(v).CloneVT())
		}
		r.RepeatedListValue = tmpContainer
	}
	if len(m.unknownFields) > 0 {
		r.unknownFields = make([]byte, len(m.unknownFields))
		copy(r.unknownFields, m.unknownFields)
	}
	return r
}
func (m *TestAllTypesProto3) CloneMessageVT() proto.Message {
	return m.CloneVT()
}
func (m *TestAllTypesProto3_OneofUint32) CloneVT() isTestAllTypesProto3_OneofField {
	if m == nil {
		return (*TestAllTypesProto3_OneofUint32)(nil)
	}
	r := new(TestAllTypesProto3_OneofUint32)
	r.OneofUint32 = m.OneofUint32
	return r
}
func (m *TestAllTypesProto3_OneofNestedMessage) CloneVT() isTestAllTypesProto3_OneofField {
	if m == nil {
		return (*TestAllTypesProto3_OneofNestedMessage)(nil)
	}
	r := new(TestAllTypesProto3_OneofNestedMessage)
	r.OneofNestedMessage = m.OneofNestedMessage.CloneVT()
	return r
}
func (m *TestAllTypesProto3_OneofString) CloneVT() isTestAllTypesProto3_OneofField {
	if m == nil {
		return (*TestAllTypesProto3_OneofString)(nil)
	}
	r := new(TestAllTypesProto3_OneofString)
	r.OneofString = m.OneofString
	return r
}
func (m *TestAllTypesProto3_OneofBytes) CloneVT() isTestAllTypesProto3_OneofField {
	if m == nil {
		return (*TestAllTypesProto3_OneofBytes)(nil)
	}
	r := new(TestAllTypesProto3_OneofBytes)
	if rhs := m.OneofBytes; rhs != nil {
		tmpBytes := make([]byte, len(rhs))
		copy(tmpBytes, rhs)
		r.OneofBytes = tmpBytes
	}
	return r
}
func (m *TestAllTypesProto3_OneofBool) CloneVT() isTestAllTypesProto3_OneofField {
	if m == nil {
		return (*TestAllTypesProto3_OneofBool)(nil)
	}
	r := new(TestAllTypesProto3_OneofBool)
	r.OneofBool = m.OneofBool
	return r
}
func (m *TestAllTypesProto3_OneofUint64) CloneVT() isTestAllTypesProto3_OneofField {
	if m == nil {
		return (*TestAllTypesProto3_OneofUint64)(nil)
	}
	r := new(TestAllTypesProto3_OneofUint64)
	r.OneofUint64 = m.OneofUint64
	return r
}
func (m *TestAllTypesProto3_OneofFloat) CloneVT() isTestAllTypesProto3_OneofField {
	if m == nil {
		return (*TestAllTypesProto3_OneofFloat)(nil)
	}
	r := new(TestAllTypesProto3_OneofFloat)
	r.OneofFloat = m.OneofFloat
	return r
}
func (m *TestAllTypesProto3_OneofDouble) CloneVT() isTestAllTypesProto3_OneofField {
	if m == nil {
		return (*TestAllTypesProto3_OneofDouble)(nil)
	}
	r := new(TestAllTypesProto3_OneofDouble)
	r.OneofDouble = m.OneofDouble
	return r
}
func (m *TestAllTypesProto3_OneofEnum) CloneVT() isTestAllTypesProto3_OneofField {
	if m == nil {
		return (*TestAllTypesProto3_OneofEnum)(nil)
	}
	r := new(TestAllTypesProto3_OneofEnum)
	r.OneofEnum = m.OneofEnum
	return r
}
func (m *TestAllTypesProto3_OneofNullValue) CloneVT() isTestAllTypesProto3_OneofField {
	if m == nil {
		return (*TestAllTypesProto3_OneofNullValue)(nil)
	}
	r := new(TestAllTypesProto3_OneofNullValue)
	r.OneofNullValue = m.OneofNullValue
	return r
}
func (m *ForeignMessage) CloneVT() *ForeignMessage {
	if m == nil {
		return (*ForeignMessage)(nil)
	}
	r := new(ForeignMessage)
	r.C = m.C
	if len(m.unknownFields) > 0 {
		r.unknownFields = make([]byte, len(m.unknownFields))
		copy(r.unknownFields, m.unknownFields)
	}
	return r
}
func (m *ForeignMessage) CloneMessageVT() proto.Message {
	return m.CloneVT()
}
func (m *NullHypothesisProto3) CloneVT() *NullHypothesisProto3 {
	if m == nil {
		return (*NullHypothesisProto3)(nil)
	}
	r := new(NullHypothesisProto3)
	if len(m.unknownFields) > 0 {
		r.unknownFields = make([]byte, len(m.unknownFields))
		copy(r.unknownFields, m.unknownFields)
	}
	return r
}
func (m *NullHypothesisProto3) CloneMessageVT() proto.Message {
	return m.CloneVT()
}
func (m *EnumOnlyProto3) CloneVT() *EnumOnlyProto3 {
	if m == nil {
		return (*EnumOnlyProto3)(nil)
	}
	r := new(EnumOnlyProto3)
	if len(m.unknownFields) > 0 {
		r.unknownFields = make([]byte, len(m.unknownFields))
		copy(r.unknownFields, m.unknownFields)
	}
	return r
}
func (m *EnumOnlyProto3) CloneMessageVT() proto.Message {
	return m.CloneVT()
}
".
Definition y_conformance3 : list string := [y_conformance3_1; y_conformance3_2; y_conformance3_3].

(** /repo/types/known/anypb/any_vtproto.pb.go *)
Definition y_any_1 : string :=
"func (m *Any) CloneVT() *Any {
	if m == nil {
		return (*Any)(nil)
	}
	r := new(Any)
	r.TypeUrl = m.TypeUrl
	if rhs := m.Value; rhs != nil {
		tmpBytes := make([]byte, len(rhs))
		copy(tmpBytes, rhs)
		r.Value = tmpBytes
	}
	return r
}
".
Definition y_any : list string := [y_any_1].

(** /repo/types/known/durationpb/duration_vtproto.pb.go *)
Definition y_duration_1 : string :=
"func (m *Duration) CloneVT() *Duration {
	if m == nil {
		return (*Duration)(nil)
	}
	r := new(Duration)
	r.Seconds = m.Seconds
	r.Nanos = m.Nanos
	return r
}
".
Definition y_duration : list string := [y_duration_1].

(** /repo/types/known/emptypb/empty_vtproto.pb.go *)
Definition y_empty_1 : string :=
"func (m *Empty) CloneVT() *Empty {
	if m == nil {
		return (*Empty)(nil)
	}
	r := new(Empty)
	return r
}
".
Definition y_empty : list string := [y_empty_1].

(** /repo/types/known/fieldmaskpb/field_mask_vtproto.pb.go *)
Definition y_field_mask_1 : string :=
"func (m *FieldMask) CloneVT() *FieldMask {
	if m == nil {
		return (*FieldMask)(nil)
	}
	r := new(FieldMask)
	if rhs := m.Paths; rhs != nil {
		tmpContainer := make([]string, len(rhs))
		copy(tmpContainer, rhs)
		r.Paths = tmpContainer
	}
	return r
}
".
Definition y_field_mask : list string := [y_field_mask_1].

(** /repo/types/known/structpb/struct_vtproto.pb.go *)
Definition y_struct_1 : string :=
"func (m *Struct) CloneVT() *Struct {
	if m == nil {
		return (*Struct)(nil)
	}
	r := new(Struct)
	if rhs := m.Fields; rhs != nil {
		tmpContainer := make(map[string]*structpb.Value, len(rhs))
		for k, v := range rhs {
			tmpContainer[k] = (*structpb.Value)((*Value)(v).CloneVT())
		}
		r.Fields = tmpContainer
	}
	return r
}
func (m *Value) CloneVT() *Value {
	if m == nil {
		return (*Value)(nil)
	}
	r := new(Value)
	if m.Kind != nil {
		switch c := m.Kind.(type) {
		case *structpb.Value_NullValue:
			r.Kind = (*structpb.Value_NullValue)((*Value_NullValue)(c).CloneVT())
		case *structpb.Value_NumberValue:
			r.Kind = (*structpb.Value_NumberValue)((*Value_NumberValue)(c).CloneVT())
		case *structpb.Value_StringValue:
			r.Kind = (*structpb.Value_StringValue)((*Value_StringValue)(c).CloneVT())
		case *structpb.Value_BoolValue:
			r.Kind = (*structpb.Value_BoolValue)((*Value_BoolValue)(c).CloneVT())
		case *structpb.Value_StructValue:
			r.Kind = (*structpb.Value_StructValue)((*Value_StructValue)(c).CloneVT())
		case *structpb.Value_ListValue:
			r.Kind = (*structpb.Value_ListValue)((*Value_ListValue)(c).CloneVT())
		}
	}
	return r
}
func (m *Value_NullValue) CloneVT() *Value_NullValue {
	if m == nil {
		return (*Value_NullValue)(nil)
	}
	r := new(Value_NullValue)
	r.NullValue = m.NullValue
	return r
}
func (m *Value_NumberValue) CloneVT() *Value_NumberValue {
	if m == nil {
		return (*Value_NumberValue)(nil)
	}
	r := new(Value_NumberValue)
	r.NumberValue = m.NumberValue
	return r
}
func (m *Value_StringValue) CloneVT() *Value_StringValue {
	if m == nil {
		return (*Value_StringValue)(nil)
	}
	r := new(Value_StringValue)
	r.StringValue = m.StringValue
	return r
}
func (m *Value_BoolValue) CloneVT() *Value_BoolValue {
	if m == nil {
		return (*Value_BoolValue)(nil)
	}
	r := new(Value_BoolValue)
	r.BoolValue = m.BoolValue
	return r
}
func (m *Value_StructValue) CloneVT() *Value_StructValue {
	if m == nil {
		return (*Value_StructValue)(nil)
	}
	r := new(Value_StructValue)
	r.StructValue = (*structpb.Struct)((*Struct)(m.StructValue).CloneVT())
	return r
}
func (m *Value_ListValue) CloneVT() *Value_ListValue {
	if m == nil {
		return (*Value_ListValue)(nil)
	}
	r := new(Value_ListValue)
	r.ListValue = (*structpb.ListValue)((*ListValue)(m.ListValue).CloneVT())
	return r
}
func (m *ListValue) CloneVT() *ListValue {
	if m == nil {
		return (*ListValue)(nil)
	}
	r := new(ListValue)
	if rhs := m.Values; rhs != nil {
		tmpContainer := make([]*structpb.Value, len(rhs))
		for k, v := range rhs {
			tmpContainer[k] = (*structpb.Value)((*Value)(v).CloneVT())
		}
		r.Values = tmpContainer
	}
	return r
}
".
Definition y_struct : list string := [y_struct_1].

(** /repo/types/known/timestamppb/timestamp_vtproto.pb.go *)
Definition y_timestamp_1 : string :=
"func (m *Timestamp) CloneVT() *Timestamp {
	if m == nil {
		return (*Timestamp)(nil)
	}
	r := new(Timestamp)
	r.Seconds = m.Seconds
	r.Nanos = m.Nanos
	return r
}
".
Definition y_timestamp : list string := [y_timestamp_1].

(** /repo/types/known/wrapperspb/wrappers_vtproto.pb.go *)
Definition y_wrappers_1 : string :=
"func (m *DoubleValue) CloneVT() *DoubleValue {
	if m == nil {
		return (*DoubleValue)(nil)
	}
	r := new(DoubleValue)
	r.Value = m.Value
	return r
}
func (m *FloatValue) CloneVT() *FloatValue {
	if m == nil {
		return (*FloatValue)(nil)
	}
	r := new(FloatValue)
	r.Value = m.Value
	return r
}
func (m *Int64Value) CloneVT() *Int64Value {
	if m == nil {
		return (*Int64Value)(nil)
	}
	r := new(Int64Value)
	r.Value = m.Value
	return r
}
func (m *UInt64Value) CloneVT() *UInt64Value {
	if m == nil {
		return (*UInt64Value)(nil)
	}
	r := new(UInt64Value)
	r.Value = m.Value
	return r
}
func (m *Int32Value) CloneVT() *Int32Value {
	if m == nil {
		return (*Int32Value)(nil)
	}
	r := new(Int32Value)
	r.Value = m.Value
	return r
}
func (m *UInt32Value) CloneVT() *UInt32Value {
	if m == nil {
		return (*UInt32Value)(nil)
	}
	r := new(UInt32Value)
	r.Value = m.Value
	return r
}
func (m *BoolValue) CloneVT() *BoolValue {
	if m == nil {
		return (*BoolValue)(nil)
	}
	r := new(BoolValue)
	r.Value = m.Value
	return r
}
func (m *StringValue) CloneVT() *StringValue {
	if m == nil {
		return (*StringValue)(nil)
	}
	r := new(StringValue)
	r.Value = m.Value
	return r
}
func (m *BytesValue) CloneVT() *BytesValue {
	if m == nil {
		return (*BytesValue)(nil)
	}
	r := new(BytesValue)
	if rhs := m.Value; rhs != nil {
		tmpBytes := make([]byte, len(rhs))
		copy(tmpBytes, rhs)
		r.Value = tmpBytes
	}
	return r
}
".
Definition y_wrappers : list string := [y_wrappers_1].

