(** Written by tools/gotext.py.  The text of the SizeVT methods in the *_vtproto.pb.go
    files cited, as committed in /repo. *)
From Coq Require Import String List.
Import ListNotations.
Open Scope string_scope.

(** /repo/testproto/ignore_unknown_fields/opt_vtproto.pb.go *)
Definition s_ignore_unknown_1 : string :=
"func (m *IgnoreUnknownFieldsExtension) SizeVT() (n int) {
	if m == nil {
		return 0
	}
	var l int
	_ = l
	l = len(m.Foo)
	if l > 0 {
		n += 1 + l + protohelpers.SizeOfVarint(uint64(l))
	}
	return n
}
".
Definition s_ignore_unknown : list string := [s_ignore_unknown_1].

(** /repo/testproto/pool/pool_vtproto.pb.go *)
Definition s_pool_1 : string :=
"func (m *OptionalMessage) SizeVT() (n int) {
	if m == nil {
		return 0
	}
	var l int
	_ = l
	n += len(m.unknownFields)
	return n
}
func (m *MemoryPoolExtension) SizeVT() (n int) {
	if m == nil {
		return 0
	}
	var l int
	_ = l
	l = len(m.Foo1)
	if l > 0 {
		n += 1 + l + protohelpers.SizeOfVarint(uint64(l))
	}
	if m.Foo2 != 0 {
		n += 1 + protohelpers.SizeOfVarint(uint64(m.Foo2))
	}
	if m.Foo3 != nil {
		l = m.Foo3.SizeVT()
		n += 1 + l + protohelpers.SizeOfVarint(uint64(l))
	}
	n += len(m.unknownFields)
	return n
}
".
Definition s_pool : list string := [s_pool_1].

(** /repo/testproto/pool/pool_with_oneof_vtproto.pb.go *)
Definition s_pool_oneof_1 : string :=
"func (m *OneofTest_Test1) SizeVT() (n int) {
	if m == nil {
		return 0
	}
	var l int
	_ = l
	if m.A != 0 {
		n += 1 + protohelpers.SizeOfVarint(uint64(m.A))
	}
	n += len(m.unknownFields)
	return n
}
func (m *OneofTest_Test2) SizeVT() (n int) {
	if m == nil {
		return 0
	}
	var l int
	_ = l
	if len(m.B) > 0 {
		for _, s := range m.B {
			l = len(s)
			n += 1 + l + protohelpers.SizeOfVarint(uint64(l))
		}
	}
	n += len(m.unknownFields)
	return n
}
func (m *OneofTest_Test3_Element2) SizeVT() (n int) {
	if m == nil {
		return 0
	}
	var l int
	_ = l
	if m.D != 0 {
		n += 1 + protohelpers.SizeOfVarint(uint64(m.D))
	}
	n += len(m.unknownFields)
	return n
}
func (m *OneofTest_Test3) SizeVT() (n int) {
	if m == nil {
		return 0
	}
	var l int
	_ = l
	if m.C != nil {
		l = m.C.SizeVT()
		n += 1 + l + protohelpers.SizeOfVarint(uint64(l))
	}
	n += len(m.unknownFields)
	return n
}
func (m *OneofTest) SizeVT() (n int) {
	if m == nil {
		return 0
	}
	var l int
	_ = l
	if vtmsg, ok := m.Test.(interface{ SizeVT() int }); ok {
		n += vtmsg.SizeVT()
	}
	n += len(m.unknownFields)
	return n
}
func (m *OneofTest_Test1_) SizeVT() (n int) {
	if m == nil {
		return 0
	}
	var l int
	_ = l
	if m.Test1 != nil {
		l = m.Test1.SizeVT()
		n += 1 + l + protohelpers.SizeOfVarint(uint64(l))
	} else {
		n += 2
	}
	return n
}
func (m *OneofTest_Test2_) SizeVT() (n int) {
	if m == nil {
		return 0
	}
	var l int
	_ = l
	if m.Test2 != nil {
		l = m.Test2.SizeVT()
		n += 1 + l + protohelpers.SizeOfVarint(uint64(l))
	} else {
		n += 2
	}
	return n
}
func (m *OneofTest_Test3_) SizeVT() (n int) {
	if m == nil {
		return 0
	}
	var l int
	_ = l
	if m.Test3 != nil {
		l = m.Test3.SizeVT()
		n += 1 + l + protohelpers.SizeOfVarint(uint64(l))
	} else {
		n += 2
	}
	return n
}
func (m *OneofTest_Test4) SizeVT() (n int) {
	if m == nil {
		return 0
	}
	var l int
	_ = l
	l = len(m.Test4)
	n += 1 + l + protohelpers.SizeOfVarint(uint64(l))
	return n
}
".
Definition s_pool_oneof : list string := [s_pool_oneof_1].

(** /repo/testproto/pool/pool_with_slice_reuse_vtproto.pb.go *)
Definition s_pool_slice_1 : string :=
"func (m *Test1) SizeVT() (n int) {
	if m == nil {
		return 0
	}
	var l int
	_ = l
	if len(m.Sl) > 0 {
		for _, s := range m.Sl {
			l = len(s)
			n += 1 + l + protohelpers.SizeOfVarint(uint64(l))
		}
	}
	n += len(m.unknownFields)
	return n
}
func (m *Test2) SizeVT() (n int) {
	if m == nil {
		return 0
	}
	var l int
	_ = l
	if len(m.Sl) > 0 {
		for _, e := range m.Sl {
			l = e.SizeVT()
			n += 1 + l + protohelpers.SizeOfVarint(uint64(l))
		}
	}
	n += len(m.unknownFields)
	return n
}
func (m *Slice2) SizeVT() (n int) {
	if m == nil {
		return 0
	}
	var l int
	_ = l
	if len(m.A) > 0 {
		for k, v := range m.A {
			_ = k
			_ = v
			mapEntrySize := 1 + protohelpers.SizeOfVarint(uint64(k)) + 1 + protohelpers.SizeOfVarint(uint64(v))
			n += mapEntrySize + 1 + protohelpers.SizeOfVarint(uint64(mapEntrySize))
		}
	}
	if m.B != nil {
		n += 1 + protohelpers.SizeOfVarint(uint64(*m.B))
	}
	if len(m.C) > 0 {
		for _, s := range m.C {
			l = len(s)
			n += 1 + l + protohelpers.SizeOfVarint(uint64(l))
		}
	}
	if m.D != nil {
		l = m.D.SizeVT()
		n += 1 + l + protohelpers.SizeOfVarint(uint64(l))
	}
	l = len(m.E)
	if l > 0 {
		n += 1 + l + protohelpers.SizeOfVarint(uint64(l))
	}
	if m.F != 0 {
		n += 1 + protohelpers.SizeOfVarint(uint64(m.F))
	}
	n += len(m.unknownFields)
	return n
}
func (m *Element2) SizeVT() (n int) {
	if m == nil {
		return 0
	}
	var l int
	_ = l
	if m.A != 0 {
		n += 1 + protohelpers.SizeOfVarint(uint64(m.A))
	}
	n += len(m.unknownFields)
	return n
}
func (m *Test3) SizeVT() (n int) {
	if m == nil {
		return 0
	}
	var l int
	_ = l
	if len(m.Sl) > 0 {
		for _, b := range m.Sl {
			l = len(b)
			n += 1 + l + protohelpers.SizeOfVarint(uint64(l))
		}
	}
	n += len(m.unknownFields)
	return n
}
".
Definition s_pool_slice : list string := [s_pool_slice_1].

(** /repo/testproto/proto2/scalars_vtproto.pb.go *)
Definition s_proto2_1 : string :=
"func (m *DoubleMessage) SizeVT() (n int) {
	if m == nil {
		return 0
	}
	var l int
	_ = l
	if m.RequiredField != nil {
		n += 9
	}
	if m.OptionalField != nil {
		n += 9
	}
	if len(m.RepeatedField) > 0 {
		n += 9 * len(m.RepeatedField)
	}
	if len(m.PackedField) > 0 {
		n += 1 + protohelpers.SizeOfVarint(uint64(len(m.PackedField)*8)) + len(m.PackedField)*8
	}
	n += len(m.unknownFields)
	return n
}
func (m *FloatMessage) SizeVT() (n int) {
	if m == nil {
		return 0
	}
	var l int
	_ = l
	if m.RequiredField != nil {
		n += 5
	}
	if m.OptionalField != nil {
		n += 5
	}
	if len(m.RepeatedField) > 0 {
		n += 5 * len(m.RepeatedField)
	}
	if len(m.PackedField) > 0 {
		n += 1 + protohelpers.SizeOfVarint(uint64(len(m.PackedField)*4)) + len(m.PackedField)*4
	}
	n += len(m.unknownFields)
	return n
}
func (m *Int32Message) SizeVT() (n int) {
	if m == nil {
		return 0
	}
	var l int
	_ = l
	if m.RequiredField != nil {
		n += 1 + protohelpers.SizeOfVarint(uint64(*m.RequiredField))
	}
	if m.OptionalField != nil {
		n += 1 + protohelpers.SizeOfVarint(uint64(*m.OptionalField))
	}
	if len(m.RepeatedField) > 0 {
		for _, e := range m.RepeatedField {
			n += 1 + protohelpers.SizeOfVarint(uint64(e))
		}
	}
	if len(m.PackedField) > 0 {
		l = 0
		for _, e := range m.PackedField {
			l += protohelpers.SizeOfVarint(uint64(e))
		}
		n += 1 + protohelpers.SizeOfVarint(uint64(l)) + l
	}
	n += len(m.unknownFields)
	return n
}
func (m *Int64Message) SizeVT() (n int) {
	if m == nil {
		return 0
	}
	var l int
	_ = l
	if m.RequiredField != nil {
		n += 1 + protohelpers.SizeOfVarint(uint64(*m.RequiredField))
	}
	if m.OptionalField != nil {
		n += 1 + protohelpers.SizeOfVarint(uint64(*m.OptionalField))
	}
	if len(m.RepeatedField) > 0 {
		for _, e := range m.RepeatedField {
			n += 1 + protohelpers.SizeOfVarint(uint64(e))
		}
	}
	if len(m.PackedField) > 0 {
		l = 0
		for _, e := range m.PackedField {
			l += protohelpers.SizeOfVarint(uint64(e))
		}
		n += 1 + protohelpers.SizeOfVarint(uint64(l)) + l
	}
	n += len(m.unknownFields)
	return n
}
func (m *Uint32Message) SizeVT() (n int) {
	if m == nil {
		return 0
	}
	var l int
	_ = l
	if m.RequiredField != nil {
		n += 1 + protohelpers.SizeOfVarint(uint64(*m.RequiredField))
	}
	if m.OptionalField != nil {
		n += 1 + protohelpers.SizeOfVarint(uint64(*m.OptionalField))
	}
	if len(m.RepeatedField) > 0 {
		for _, e := range m.RepeatedField {
			n += 1 + protohelpers.SizeOfVarint(uint64(e))
		}
	}
	if len(m.PackedField) > 0 {
		l = 0
		for _, e := range m.PackedField {
			l += protohelpers.SizeOfVarint(uint64(e))
		}
		n += 1 + protohelpers.SizeOfVarint(uint64(l)) + l
	}
	n += len(m.unknownFields)
	return n
}
func (m *Uint64Message) SizeVT() (n int) {
	if m == nil {
		return 0
	}
	var l int
	_ = l
	if m.RequiredField != nil {
		n += 1 + protohelpers.SizeOfVarint(uint64(*m.RequiredField))
	}
	if m.OptionalField != nil {
		n += 1 + protohelpers.SizeOfVarint(uint64(*m.OptionalField))
	}
	if len(m.RepeatedField) > 0 {
		for _, e := range m.RepeatedField {
			n += 1 + protohelpers.SizeOfVarint(uint64(e))
		}
	}
	if len(m.PackedField) > 0 {
		l = 0
		for _, e := range m.PackedField {
			l += protohelpers.SizeOfVarint(uint64(e))
		}
		n += 1 + protohelpers.SizeOfVarint(uint64(l)) + l
	}
	n += len(m.unknownFields)
	return n
}
func (m *Sint32Message) SizeVT() (n int) {
	if m == nil {
		return 0
	}
	var l int
	_ = l
	if m.RequiredField != nil {
		n += 1 + protohelpers.SizeOfZigzag(uint64(*m.RequiredField))
	}
	if m.OptionalField != nil {
		n += 1 + protohelpers.SizeOfZigzag(uint64(*m.OptionalField))
	}
	if len(m.RepeatedField) > 0 {
		for _, e := range m.RepeatedField {
			n += 1 + protohelpers.SizeOfZigzag(uint64(e))
		}
	}
	if len(m.PackedField) > 0 {
		l = 0
		for _, e := range m.PackedField {
			l += protohelpers.SizeOfZigzag(uint64(e))
		}
		n += 1 + protohelpers.SizeOfVarint(uint64(l)) + l
	}
	n += len(m.unknownFields)
	return n
}
func (m *Sint64Message) SizeVT() (n int) {
	if m == nil {
		return 0
	}
	var l int
	_ = l
	if m.RequiredField != nil {
		n += 1 + protohelpers.SizeOfZigzag(uint64(*m.RequiredField))
	}
	if m.OptionalField != nil {
		n += 1 + protohelpers.SizeOfZigzag(uint64(*m.OptionalField))
	}
	if len(m.RepeatedField) > 0 {
		for _, e := range m.RepeatedField {
			n += 1 + protohelpers.SizeOfZigzag(uint64(e))
		}
	}
	if len(m.PackedField) > 0 {
		l = 0
		for _, e := range m.PackedField {
			l += protohelpers.SizeOfZigzag(uint64(e))
		}
		n += 1 + protohelpers.SizeOfVarint(uint64(l)) + l
	}
	n += len(m.unknownFields)
	return n
}
func (m *Fixed32Message) SizeVT() (n int) {
	if m == nil {
		return 0
	}
	var l int
	_ = l
	if m.RequiredField != nil {
		n += 5
	}
	if m.OptionalField != nil {
		n += 5
	}
	if len(m.RepeatedField) > 0 {
		n += 5 * len(m.RepeatedField)
	}
	if len(m.PackedField) > 0 {
		n += 1 + protohelpers.SizeOfVarint(uint64(len(m.PackedField)*4)) + len(m.PackedField)*4
	}
	n += len(m.unknownFields)
	return n
}
func (m *Fixed64Message) SizeVT() (n int) {
	if m == nil {
		return 0
	}
	var l int
	_ = l
	if m.RequiredField != nil {
		n += 9
	}
	if m.OptionalField != nil {
		n += 9
	}
	if len(m.RepeatedField) > 0 {
		n += 9 * len(m.RepeatedField)
	}
	if len(m.PackedField) > 0 {
		n += 1 + protohelpers.SizeOfVarint(uint64(len(m.PackedField)*8)) + len(m.PackedField)*8
	}
	n += len(m.unknownFields)
	return n
}
func (m *Sfixed32Message) SizeVT() (n int) {
	if m == nil {
		return 0
	}
	var l int
	_ = l
	if m.RequiredField != nil {
		n += 5
	}
	if m.OptionalField != nil {
		n += 5
	}
	if len(m.RepeatedField) > 0 {
		n += 5 * len(m.RepeatedField)
	}
	if len(m.PackedField) > 0 {
		n += 1 + protohelpers.SizeOfVarint(uint64(len(m.PackedField)*4)) + len(m.PackedField)*4
	}
	n += len(m.unknownFields)
	return n
}
func (m *Sfixed64Message) SizeVT() (n int) {
	if m == nil {
		return 0
	}
	var l int
	_ = l
	if m.RequiredField != nil {
		n += 9
	}
	if m.OptionalField != nil {
		n += 9
	}
	if len(m.RepeatedField) > 0 {
		n += 9 * len(m.RepeatedField)
	}
	if len(m.PackedField) > 0 {
		n += 1 + protohelpers.SizeOfVarint(uint64(len(m.PackedField)*8)) + len(m.PackedField)*8
	}
	n += len(m.unknownFields)
	return n
}
func (m *BoolMessage) SizeVT() (n int) {
	if m == nil {
		return 0
	}
	var l int
	_ = l
	if m.RequiredField != nil {
		n += 2
	}
	if m.OptionalField != nil {
		n += 2
	}
	if len(m.RepeatedField) > 0 {
		n += 2 * len(m.RepeatedField)
	}
	if len(m.PackedField) > 0 {
		n += 1 + protohelpers.SizeOfVarint(uint64(len(m.PackedField))) + len(m.PackedField)*1
	}
	n += len(m.unknownFields)
	return n
}
func (m *StringMessage) SizeVT() (n int) {
	if m == nil {
		return 0
	}
	var l int
	_ = l
	if m.RequiredField != nil {
		l = len(*m.RequiredField)
		n += 1 + l + protohelpers.SizeOfVarint(uint64(l))
	}
	if m.OptionalField != nil {
		l = len(*m.OptionalField)
		n += 1 + l + protohelpers.SizeOfVarint(uint64(l))
	}
	if len(m.RepeatedField) > 0 {
		for _, s := range m.RepeatedField {
			l = len(s)
			n += 1 + l + protohelpers.SizeOfVarint(uint64(l))
		}
	}
	n += len(m.unknownFields)
	return n
}
func (m *BytesMessage) SizeVT() (n int) {
	if m == nil {
		return 0
	}
	var l int
	_ = l
	if m.RequiredField != nil {
		l = len(m.RequiredField)
		n += 1 + l + protohelpers.SizeOfVarint(uint64(l))
	}
	if m.OptionalField != nil {
		l = len(m.OptionalField)
		n += 1 + l + protohelpers.SizeOfVarint(uint64(l))
	}
	if len(m.RepeatedField) > 0 {
		for _, b := range m.RepeatedField {
			l = len(b)
			n += 1 + l + protohelpers.SizeOfVarint(uint64(l))
		}
	}
	n += len(m.unknownFields)
	return n
}
func (m *EnumMessage) SizeVT() (n int) {
	if m == nil {
		return 0
	}
	var l int
	_ = l
	if m.RequiredField != nil {
		n += 1 + protohelpers.SizeOfVarint(uint64(*m.RequiredField))
	}
	if m.OptionalField != nil {
		n += 1 + protohelpers.SizeOfVarint(uint64(*m.OptionalField))
	}
	if len(m.RepeatedField) > 0 {
		for _, e := range m.RepeatedField {
			n += 1 + protohelpers.SizeOfVarint(uint64(e))
		}
	}
	if len(m.PackedField) > 0 {
		l = 0
		for _, e := range m.PackedField {
".
Definition s_proto2_2 : string :=
"			l += protohelpers.SizeOfVarint(uint64(e))
		}
		n += 1 + protohelpers.SizeOfVarint(uint64(l)) + l
	}
	n += len(m.unknownFields)
	return n
}
".
Definition s_proto2 : list string := [s_proto2_1; s_proto2_2].

(** /repo/testproto/proto3opt/opt_vtproto.pb.go *)
Definition s_proto3opt_1 : string :=
"func (m *OptionalFieldInProto3) SizeVT() (n int) {
	if m == nil {
		return 0
	}
	var l int
	_ = l
	if m.OptionalInt32 != nil {
		n += 1 + protohelpers.SizeOfVarint(uint64(*m.OptionalInt32))
	}
	if m.OptionalInt64 != nil {
		n += 1 + protohelpers.SizeOfVarint(uint64(*m.OptionalInt64))
	}
	if m.OptionalUint32 != nil {
		n += 1 + protohelpers.SizeOfVarint(uint64(*m.OptionalUint32))
	}
	if m.OptionalUint64 != nil {
		n += 1 + protohelpers.SizeOfVarint(uint64(*m.OptionalUint64))
	}
	if m.OptionalSint32 != nil {
		n += 1 + protohelpers.SizeOfZigzag(uint64(*m.OptionalSint32))
	}
	if m.OptionalSint64 != nil {
		n += 1 + protohelpers.SizeOfZigzag(uint64(*m.OptionalSint64))
	}
	if m.OptionalFixed32 != nil {
		n += 5
	}
	if m.OptionalFixed64 != nil {
		n += 9
	}
	if m.OptionalSfixed32 != nil {
		n += 5
	}
	if m.OptionalSfixed64 != nil {
		n += 9
	}
	if m.OptionalFloat != nil {
		n += 5
	}
	if m.OptionalDouble != nil {
		n += 9
	}
	if m.OptionalBool != nil {
		n += 2
	}
	if m.OptionalString != nil {
		l = len(*m.OptionalString)
		n += 1 + l + protohelpers.SizeOfVarint(uint64(l))
	}
	if m.OptionalBytes != nil {
		l = len(m.OptionalBytes)
		n += 1 + l + protohelpers.SizeOfVarint(uint64(l))
	}
	if m.OptionalEnum != nil {
		n += 2 + protohelpers.SizeOfVarint(uint64(*m.OptionalEnum))
	}
	n += len(m.unknownFields)
	return n
}
".
Definition s_proto3opt : list string := [s_proto3opt_1].

(** /repo/testproto/unique/unique_vtproto.pb.go *)
Definition s_unique_1 : string :=
"func (m *UniqueFieldExtension) SizeVT() (n int) {
	if m == nil {
		return 0
	}
	var l int
	_ = l
	l = len(m.Foo)
	if l > 0 {
		n += 1 + l + protohelpers.SizeOfVarint(uint64(l))
	}
	if len(m.Bar) > 0 {
		for k, v := range m.Bar {
			_ = k
			_ = v
			mapEntrySize := 1 + len(k) + protohelpers.SizeOfVarint(uint64(len(k))) + 1 + protohelpers.SizeOfVarint(uint64(v))
			n += mapEntrySize + 1 + protohelpers.SizeOfVarint(uint64(mapEntrySize))
		}
	}
	if len(m.Baz) > 0 {
		for k, v := range m.Baz {
			_ = k
			_ = v
			mapEntrySize := 1 + protohelpers.SizeOfVarint(uint64(k)) + 1 + len(v) + protohelpers.SizeOfVarint(uint64(len(v)))
			n += mapEntrySize + 1 + protohelpers.SizeOfVarint(uint64(mapEntrySize))
		}
	}
	n += len(m.unknownFields)
	return n
}
".
Definition s_unique : list string := [s_unique_1].

(** /repo/testproto/unsafe/unsafe_vtproto.pb.go *)
Definition s_unsafe_1 : string :=
"func (m *UnsafeTest_Sub1) SizeVT() (n int) {
	if m == nil {
		return 0
	}
	var l int
	_ = l
	l = len(m.S)
	if l > 0 {
		n += 1 + l + protohelpers.SizeOfVarint(uint64(l))
	}
	l = len(m.B)
	if l > 0 {
		n += 1 + l + protohelpers.SizeOfVarint(uint64(l))
	}
	n += len(m.unknownFields)
	return n
}
func (m *UnsafeTest_Sub2) SizeVT() (n int) {
	if m == nil {
		return 0
	}
	var l int
	_ = l
	if len(m.S) > 0 {
		for _, s := range m.S {
			l = len(s)
			n += 1 + l + protohelpers.SizeOfVarint(uint64(l))
		}
	}
	if len(m.B) > 0 {
		for _, b := range m.B {
			l = len(b)
			n += 1 + l + protohelpers.SizeOfVarint(uint64(l))
		}
	}
	n += len(m.unknownFields)
	return n
}
func (m *UnsafeTest_Sub3) SizeVT() (n int) {
	if m == nil {
		return 0
	}
	var l int
	_ = l
	if len(m.Foo) > 0 {
		for k, v := range m.Foo {
			_ = k
			_ = v
			l = 1 + len(v) + protohelpers.SizeOfVarint(uint64(len(v)))
			mapEntrySize := 1 + len(k) + protohelpers.SizeOfVarint(uint64(len(k))) + l
			n += mapEntrySize + 1 + protohelpers.SizeOfVarint(uint64(mapEntrySize))
		}
	}
	n += len(m.unknownFields)
	return n
}
func (m *UnsafeTest_Sub4) SizeVT() (n int) {
	if m == nil {
		return 0
	}
	var l int
	_ = l
	if vtmsg, ok := m.Foo.(interface{ SizeVT() int }); ok {
		n += vtmsg.SizeVT()
	}
	n += len(m.unknownFields)
	return n
}
func (m *UnsafeTest_Sub4_S) SizeVT() (n int) {
	if m == nil {
		return 0
	}
	var l int
	_ = l
	l = len(m.S)
	n += 1 + l + protohelpers.SizeOfVarint(uint64(l))
	return n
}
func (m *UnsafeTest_Sub4_B) SizeVT() (n int) {
	if m == nil {
		return 0
	}
	var l int
	_ = l
	l = len(m.B)
	n += 1 + l + protohelpers.SizeOfVarint(uint64(l))
	return n
}
func (m *UnsafeTest_Sub5) SizeVT() (n int) {
	if m == nil {
		return 0
	}
	var l int
	_ = l
	if len(m.Foo) > 0 {
		for k, v := range m.Foo {
			_ = k
			_ = v
			mapEntrySize := 1 + len(k) + protohelpers.SizeOfVarint(uint64(len(k))) + 1 + len(v) + protohelpers.SizeOfVarint(uint64(len(v)))
			n += mapEntrySize + 1 + protohelpers.SizeOfVarint(uint64(mapEntrySize))
		}
	}
	n += len(m.unknownFields)
	return n
}
func (m *UnsafeTest) SizeVT() (n int) {
	if m == nil {
		return 0
	}
	var l int
	_ = l
	if vtmsg, ok := m.Sub.(interface{ SizeVT() int }); ok {
		n += vtmsg.SizeVT()
	}
	n += len(m.unknownFields)
	return n
}
func (m *UnsafeTest_Sub1_) SizeVT() (n int) {
	if m == nil {
		return 0
	}
	var l int
	_ = l
	if m.Sub1 != nil {
		l = m.Sub1.SizeVT()
		n += 1 + l + protohelpers.SizeOfVarint(uint64(l))
	} else {
		n += 2
	}
	return n
}
func (m *UnsafeTest_Sub2_) SizeVT() (n int) {
	if m == nil {
		return 0
	}
	var l int
	_ = l
	if m.Sub2 != nil {
		l = m.Sub2.SizeVT()
		n += 1 + l + protohelpers.SizeOfVarint(uint64(l))
	} else {
		n += 2
	}
	return n
}
func (m *UnsafeTest_Sub3_) SizeVT() (n int) {
	if m == nil {
		return 0
	}
	var l int
	_ = l
	if m.Sub3 != nil {
		l = m.Sub3.SizeVT()
		n += 1 + l + protohelpers.SizeOfVarint(uint64(l))
	} else {
		n += 2
	}
	return n
}
func (m *UnsafeTest_Sub4_) SizeVT() (n int) {
	if m == nil {
		return 0
	}
	var l int
	_ = l
	if m.Sub4 != nil {
		l = m.Sub4.SizeVT()
		n += 1 + l + protohelpers.SizeOfVarint(uint64(l))
	} else {
		n += 2
	}
	return n
}
func (m *UnsafeTest_Sub5_) SizeVT() (n int) {
	if m == nil {
		return 0
	}
	var l int
	_ = l
	if m.Sub5 != nil {
		l = m.Sub5.SizeVT()
		n += 1 + l + protohelpers.SizeOfVarint(uint64(l))
	} else {
		n += 2
	}
	return n
}
".
Definition s_unsafe : list string := [s_unsafe_1].

(** /repo/testproto/wkt/wkt_vtproto.pb.go *)
Definition s_wkt_1 : string :=
"func (m *MessageWithWKT) SizeVT() (n int) {
	if m == nil {
		return 0
	}
	var l int
	_ = l
	if m.Any != nil {
		l = (*anypb1.Any)(m.Any).SizeVT()
		n += 1 + l + protohelpers.SizeOfVarint(uint64(l))
	}
	if m.Duration != nil {
		l = (*durationpb1.Duration)(m.Duration).SizeVT()
		n += 1 + l + protohelpers.SizeOfVarint(uint64(l))
	}
	if m.Empty != nil {
		l = (*emptypb1.Empty)(m.Empty).SizeVT()
		n += 1 + l + protohelpers.SizeOfVarint(uint64(l))
	}
	if m.FieldMask != nil {
		l = (*fieldmaskpb1.FieldMask)(m.FieldMask).SizeVT()
		n += 1 + l + protohelpers.SizeOfVarint(uint64(l))
	}
	if m.Timestamp != nil {
		l = (*timestamppb1.Timestamp)(m.Timestamp).SizeVT()
		n += 1 + l + protohelpers.SizeOfVarint(uint64(l))
	}
	if m.DoubleValue != nil {
		l = (*wrapperspb1.DoubleValue)(m.DoubleValue).SizeVT()
		n += 1 + l + protohelpers.SizeOfVarint(uint64(l))
	}
	if m.FloatValue != nil {
		l = (*wrapperspb1.FloatValue)(m.FloatValue).SizeVT()
		n += 1 + l + protohelpers.SizeOfVarint(uint64(l))
	}
	if m.Int64Value != nil {
		l = (*wrapperspb1.Int64Value)(m.Int64Value).SizeVT()
		n += 1 + l + protohelpers.SizeOfVarint(uint64(l))
	}
	if m.Uint64Value != nil {
		l = (*wrapperspb1.UInt64Value)(m.Uint64Value).SizeVT()
		n += 1 + l + protohelpers.SizeOfVarint(uint64(l))
	}
	if m.Int32Value != nil {
		l = (*wrapperspb1.Int32Value)(m.Int32Value).SizeVT()
		n += 1 + l + protohelpers.SizeOfVarint(uint64(l))
	}
	if m.Uint32Value != nil {
		l = (*wrapperspb1.UInt32Value)(m.Uint32Value).SizeVT()
		n += 1 + l + protohelpers.SizeOfVarint(uint64(l))
	}
	if m.BoolValue != nil {
		l = (*wrapperspb1.BoolValue)(m.BoolValue).SizeVT()
		n += 1 + l + protohelpers.SizeOfVarint(uint64(l))
	}
	if m.StringValue != nil {
		l = (*wrapperspb1.StringValue)(m.StringValue).SizeVT()
		n += 1 + l + protohelpers.SizeOfVarint(uint64(l))
	}
	if m.BytesValue != nil {
		l = (*wrapperspb1.BytesValue)(m.BytesValue).SizeVT()
		n += 1 + l + protohelpers.SizeOfVarint(uint64(l))
	}
	if m.StructValue != nil {
		l = (*structpb1.Struct)(m.StructValue).SizeVT()
		n += 1 + l + protohelpers.SizeOfVarint(uint64(l))
	}
	if m.ValueValue != nil {
		l = (*structpb1.Value)(m.ValueValue).SizeVT()
		n += 2 + l + protohelpers.SizeOfVarint(uint64(l))
	}
	if m.ListvalueValue != nil {
		l = (*structpb1.ListValue)(m.ListvalueValue).SizeVT()
		n += 2 + l + protohelpers.SizeOfVarint(uint64(l))
	}
	if m.NullValue != 0 {
		n += 2 + protohelpers.SizeOfVarint(uint64(m.NullValue))
	}
	n += len(m.unknownFields)
	return n
}
".
Definition s_wkt : list string := [s_wkt_1].

(** /repo/testproto/grpc/grpc_vtproto.pb.go *)
Definition s_grpc_1 : string :=
"func (m *LocalTestMessageRequest) SizeVT() (n int) {
	if m == nil {
		return 0
	}
	var l int
	_ = l
	n += len(m.unknownFields)
	return n
}
func (m *LocalTestMessageResponse) SizeVT() (n int) {
	if m == nil {
		return 0
	}
	var l int
	_ = l
	n += len(m.unknownFields)
	return n
}
".
Definition s_grpc : list string := [s_grpc_1].

(** /repo/testproto/grpc/inner/inner_vtproto.pb.go *)
Definition s_grpc_inner_1 : string :=
"func (m *TestMessageRequest) SizeVT() (n int) {
	if m == nil {
		return 0
	}
	var l int
	_ = l
	n += len(m.unknownFields)
	return n
}
func (m *TestMessageResponse) SizeVT() (n int) {
	if m == nil {
		return 0
	}
	var l int
	_ = l
	n += len(m.unknownFields)
	return n
}
".
Definition s_grpc_inner : list string := [s_grpc_inner_1].

(** /repo/conformance/internal/conformance/conformance_vtproto.pb.go *)
Definition s_conformance_1 : string :=
"func (m *FailureSet) SizeVT() (n int) {
	if m == nil {
		return 0
	}
	var l int
	_ = l
	if len(m.Failure) > 0 {
		for _, s := range m.Failure {
			l = len(s)
			n += 1 + l + protohelpers.SizeOfVarint(uint64(l))
		}
	}
	n += len(m.unknownFields)
	return n
}
func (m *ConformanceRequest) SizeVT() (n int) {
	if m == nil {
		return 0
	}
	var l int
	_ = l
	if vtmsg, ok := m.Payload.(interface{ SizeVT() int }); ok {
		n += vtmsg.SizeVT()
	}
	if m.RequestedOutputFormat != 0 {
		n += 1 + protohelpers.SizeOfVarint(uint64(m.RequestedOutputFormat))
	}
	l = len(m.MessageType)
	if l > 0 {
		n += 1 + l + protohelpers.SizeOfVarint(uint64(l))
	}
	if m.TestCategory != 0 {
		n += 1 + protohelpers.SizeOfVarint(uint64(m.TestCategory))
	}
	if m.JspbEncodingOptions != nil {
		l = m.JspbEncodingOptions.SizeVT()
		n += 1 + l + protohelpers.SizeOfVarint(uint64(l))
	}
	if m.PrintUnknownFields {
		n += 2
	}
	n += len(m.unknownFields)
	return n
}
func (m *ConformanceRequest_ProtobufPayload) SizeVT() (n int) {
	if m == nil {
		return 0
	}
	var l int
	_ = l
	l = len(m.ProtobufPayload)
	n += 1 + l + protohelpers.SizeOfVarint(uint64(l))
	return n
}
func (m *ConformanceRequest_JsonPayload) SizeVT() (n int) {
	if m == nil {
		return 0
	}
	var l int
	_ = l
	l = len(m.JsonPayload)
	n += 1 + l + protohelpers.SizeOfVarint(uint64(l))
	return n
}
func (m *ConformanceRequest_JspbPayload) SizeVT() (n int) {
	if m == nil {
		return 0
	}
	var l int
	_ = l
	l = len(m.JspbPayload)
	n += 1 + l + protohelpers.SizeOfVarint(uint64(l))
	return n
}
func (m *ConformanceRequest_TextPayload) SizeVT() (n int) {
	if m == nil {
		return 0
	}
	var l int
	_ = l
	l = len(m.TextPayload)
	n += 1 + l + protohelpers.SizeOfVarint(uint64(l))
	return n
}
func (m *ConformanceResponse) SizeVT() (n int) {
	if m == nil {
		return 0
	}
	var l int
	_ = l
	if vtmsg, ok := m.Result.(interface{ SizeVT() int }); ok {
		n += vtmsg.SizeVT()
	}
	n += len(m.unknownFields)
	return n
}
func (m *ConformanceResponse_ParseError) SizeVT() (n int) {
	if m == nil {
		return 0
	}
	var l int
	_ = l
	l = len(m.ParseError)
	n += 1 + l + protohelpers.SizeOfVarint(uint64(l))
	return n
}
func (m *ConformanceResponse_RuntimeError) SizeVT() (n int) {
	if m == nil {
		return 0
	}
	var l int
	_ = l
	l = len(m.RuntimeError)
	n += 1 + l + protohelpers.SizeOfVarint(uint64(l))
	return n
}
func (m *ConformanceResponse_ProtobufPayload) SizeVT() (n int) {
	if m == nil {
		return 0
	}
	var l int
	_ = l
	l = len(m.ProtobufPayload)
	n += 1 + l + protohelpers.SizeOfVarint(uint64(l))
	return n
}
func (m *ConformanceResponse_JsonPayload) SizeVT() (n int) {
	if m == nil {
		return 0
	}
	var l int
	_ = l
	l = len(m.JsonPayload)
	n += 1 + l + protohelpers.SizeOfVarint(uint64(l))
	return n
}
func (m *ConformanceResponse_Skipped) SizeVT() (n int) {
	if m == nil {
		return 0
	}
	var l int
	_ = l
	l = len(m.Skipped)
	n += 1 + l + protohelpers.SizeOfVarint(uint64(l))
	return n
}
func (m *ConformanceResponse_SerializeError) SizeVT() (n int) {
	if m == nil {
		return 0
	}
	var l int
	_ = l
	l = len(m.SerializeError)
	n += 1 + l + protohelpers.SizeOfVarint(uint64(l))
	return n
}
func (m *ConformanceResponse_JspbPayload) SizeVT() (n int) {
	if m == nil {
		return 0
	}
	var l int
	_ = l
	l = len(m.JspbPayload)
	n += 1 + l + protohelpers.SizeOfVarint(uint64(l))
	return n
}
func (m *ConformanceResponse_TextPayload) SizeVT() (n int) {
	if m == nil {
		return 0
	}
	var l int
	_ = l
	l = len(m.TextPayload)
	n += 1 + l + protohelpers.SizeOfVarint(uint64(l))
	return n
}
func (m *JspbEncodingConfig) SizeVT() (n int) {
	if m == nil {
		return 0
	}
	var l int
	_ = l
	if m.UseJspbArrayAnyFormat {
		n += 2
	}
	n += len(m.unknownFields)
	return n
}
".
Definition s_conformance : list string := [s_conformance_1].

(** /repo/conformance/internal/conformance/test_messages_proto2_vtproto.pb.go *)
Definition s_conformance2_1 : string :=
"func (m *TestAllTypesProto2_NestedMessage) SizeVT() (n int) {
	if m == nil {
		return 0
	}
	var l int
	_ = l
	if m.A != nil {
		n += 1 + protohelpers.SizeOfVarint(uint64(*m.A))
	}
	if m.Corecursive != nil {
		l = m.Corecursive.SizeVT()
		n += 1 + l + protohelpers.SizeOfVarint(uint64(l))
	}
	n += len(m.unknownFields)
	return n
}
func (m *TestAllTypesProto2_Data) SizeVT() (n int) {
	if m == nil {
		return 0
	}
	var l int
	_ = l
	if m.GroupInt32 != nil {
		n += 2 + protohelpers.SizeOfVarint(uint64(*m.GroupInt32))
	}
	if m.GroupUint32 != nil {
		n += 2 + protohelpers.SizeOfVarint(uint64(*m.GroupUint32))
	}
	n += len(m.unknownFields)
	return n
}
func (m *TestAllTypesProto2_MessageSetCorrect) SizeVT() (n int) {
	if m == nil {
		return 0
	}
	var l int
	_ = l
	n += len(m.unknownFields)
	return n
}
func (m *TestAllTypesProto2_MessageSetCorrectExtension1) SizeVT() (n int) {
	if m == nil {
		return 0
	}
	var l int
	_ = l
	if m.Str != nil {
		l = len(*m.Str)
		n += 2 + l + protohelpers.SizeOfVarint(uint64(l))
	}
	n += len(m.unknownFields)
	return n
}
func (m *TestAllTypesProto2_MessageSetCorrectExtension2) SizeVT() (n int) {
	if m == nil {
		return 0
	}
	var l int
	_ = l
	if m.I != nil {
		n += 1 + protohelpers.SizeOfVarint(uint64(*m.I))
	}
	n += len(m.unknownFields)
	return n
}
func (m *TestAllTypesProto2) SizeVT() (n int) {
	if m == nil {
		return 0
	}
	var l int
	_ = l
	if m.OptionalInt32 != nil {
		n += 1 + protohelpers.SizeOfVarint(uint64(*m.OptionalInt32))
	}
	if m.OptionalInt64 != nil {
		n += 1 + protohelpers.SizeOfVarint(uint64(*m.OptionalInt64))
	}
	if m.OptionalUint32 != nil {
		n += 1 + protohelpers.SizeOfVarint(uint64(*m.OptionalUint32))
	}
	if m.OptionalUint64 != nil {
		n += 1 + protohelpers.SizeOfVarint(uint64(*m.OptionalUint64))
	}
	if m.OptionalSint32 != nil {
		n += 1 + protohelpers.SizeOfZigzag(uint64(*m.OptionalSint32))
	}
	if m.OptionalSint64 != nil {
		n += 1 + protohelpers.SizeOfZigzag(uint64(*m.OptionalSint64))
	}
	if m.OptionalFixed32 != nil {
		n += 5
	}
	if m.OptionalFixed64 != nil {
		n += 9
	}
	if m.OptionalSfixed32 != nil {
		n += 5
	}
	if m.OptionalSfixed64 != nil {
		n += 9
	}
	if m.OptionalFloat != nil {
		n += 5
	}
	if m.OptionalDouble != nil {
		n += 9
	}
	if m.OptionalBool != nil {
		n += 2
	}
	if m.OptionalString != nil {
		l = len(*m.OptionalString)
		n += 1 + l + protohelpers.SizeOfVarint(uint64(l))
	}
	if m.OptionalBytes != nil {
		l = len(m.OptionalBytes)
		n += 1 + l + protohelpers.SizeOfVarint(uint64(l))
	}
	if m.OptionalNestedMessage != nil {
		l = m.OptionalNestedMessage.SizeVT()
		n += 2 + l + protohelpers.SizeOfVarint(uint64(l))
	}
	if m.OptionalForeignMessage != nil {
		l = m.OptionalForeignMessage.SizeVT()
		n += 2 + l + protohelpers.SizeOfVarint(uint64(l))
	}
	if m.OptionalNestedEnum != nil {
		n += 2 + protohelpers.SizeOfVarint(uint64(*m.OptionalNestedEnum))
	}
	if m.OptionalForeignEnum != nil {
		n += 2 + protohelpers.SizeOfVarint(uint64(*m.OptionalForeignEnum))
	}
	if m.OptionalStringPiece != nil {
		l = len(*m.OptionalStringPiece)
		n += 2 + l + protohelpers.SizeOfVarint(uint64(l))
	}
	if m.OptionalCord != nil {
		l = len(*m.OptionalCord)
		n += 2 + l + protohelpers.SizeOfVarint(uint64(l))
	}
	if m.RecursiveMessage != nil {
		l = m.RecursiveMessage.SizeVT()
		n += 2 + l + protohelpers.SizeOfVarint(uint64(l))
	}
	if len(m.RepeatedInt32) > 0 {
		for _, e := range m.RepeatedInt32 {
			n += 2 + protohelpers.SizeOfVarint(uint64(e))
		}
	}
	if len(m.RepeatedInt64) > 0 {
		for _, e := range m.RepeatedInt64 {
			n += 2 + protohelpers.SizeOfVarint(uint64(e))
		}
	}
	if len(m.RepeatedUint32) > 0 {
		for _, e := range m.RepeatedUint32 {
			n += 2 + protohelpers.SizeOfVarint(uint64(e))
		}
	}
	if len(m.RepeatedUint64) > 0 {
		for _, e := range m.RepeatedUint64 {
			n += 2 + protohelpers.SizeOfVarint(uint64(e))
		}
	}
	if len(m.RepeatedSint32) > 0 {
		for _, e := range m.RepeatedSint32 {
			n += 2 + protohelpers.SizeOfZigzag(uint64(e))
		}
	}
	if len(m.RepeatedSint64) > 0 {
		for _, e := range m.RepeatedSint64 {
			n += 2 + protohelpers.SizeOfZigzag(uint64(e))
		}
	}
	if len(m.RepeatedFixed32) > 0 {
		n += 6 * len(m.RepeatedFixed32)
	}
	if len(m.RepeatedFixed64) > 0 {
		n += 10 * len(m.RepeatedFixed64)
	}
	if len(m.RepeatedSfixed32) > 0 {
		n += 6 * len(m.RepeatedSfixed32)
	}
	if len(m.RepeatedSfixed64) > 0 {
		n += 10 * len(m.RepeatedSfixed64)
	}
	if len(m.RepeatedFloat) > 0 {
		n += 6 * len(m.RepeatedFloat)
	}
	if len(m.RepeatedDouble) > 0 {
		n += 10 * len(m.RepeatedDouble)
	}
	if len(m.RepeatedBool) > 0 {
		n += 3 * len(m.RepeatedBool)
	}
	if len(m.RepeatedString) > 0 {
		for _, s := range m.RepeatedString {
			l = len(s)
			n += 2 + l + protohelpers.SizeOfVarint(uint64(l))
		}
	}
	if len(m.RepeatedBytes) > 0 {
		for _, b := range m.RepeatedBytes {
			l = len(b)
			n += 2 + l + protohelpers.SizeOfVarint(uint64(l))
		}
	}
	if len(m.RepeatedNestedMessage) > 0 {
		for _, e := range m.RepeatedNestedMessage {
			l = e.SizeVT()
			n += 2 + l + protohelpers.SizeOfVarint(uint64(l))
		}
	}
	if len(m.RepeatedForeignMessage) > 0 {
		for _, e := range m.RepeatedForeignMessage {
			l = e.SizeVT()
			n += 2 + l + protohelpers.SizeOfVarint(uint64(l))
		}
	}
	if len(m.RepeatedNestedEnum) > 0 {
		for _, e := range m.RepeatedNestedEnum {
			n += 2 + protohelpers.SizeOfVarint(uint64(e))
		}
	}
	if len(m.RepeatedForeignEnum) > 0 {
		for _, e := range m.RepeatedForeignEnum {
			n += 2 + protohelpers.SizeOfVarint(uint64(e))
		}
	}
	if len(m.RepeatedStringPiece) > 0 {
		for _, s := range m.RepeatedStringPiece {
			l = len(s)
			n += 2 + l + protohelpers.SizeOfVarint(uint64(l))
		}
	}
	if len(m.RepeatedCord) > 0 {
		for _, s := range m.RepeatedCord {
			l = len(s)
			n += 2 + l + protohelpers.SizeOfVarint(uint64(l))
		}
	}
	if len(m.MapInt32Int32) > 0 {
		for k, v := range m.MapInt32Int32 {
			_ = k
			_ = v
			mapEntrySize := 1 + protohelpers.SizeOfVarint(uint64(k)) + 1 + protohelpers.SizeOfVarint(uint64(v))
			n += mapEntrySize + 2 + protohelpers.SizeOfVarint(uint64(mapEntrySize))
		}
	}
	if len(m.MapInt64Int64) > 0 {
		for k, v := range m.MapInt64Int64 {
			_ = k
			_ = v
			mapEntrySize := 1 + protohelpers.SizeOfVarint(uint64(k)) + 1 + protohelpers.SizeOfVarint(uint64(v))
			n += mapEntrySize + 2 + protohelpers.SizeOfVarint(uint64(mapEntrySize))
		}
	}
	if len(m.MapUint32Uint32) > 0 {
		for k, v := range m.MapUint32Uint32 {
			_ = k
			_ = v
			mapEntrySize := 1 + protohelpers.SizeOfVarint(uint64(k)) + 1 + protohelpers.SizeOfVarint(uint64(v))
			n += mapEntrySize + 2 + protohelpers.SizeOfVarint(uint64(mapEntrySize))
		}
	}
	if len(m.MapUint64Uint64) > 0 {
		for k, v := range m.MapUint64Uint64 {
			_ = k
			_ = v
			mapEntrySize := 1 + protohelpers.SizeOfVarint(uint64(k)) + 1 + protohelpers.SizeOfVarint(uint64(v))
			n += mapEntrySize + 2 + protohelpers.SizeOfVarint(uint64(mapEntrySize))
		}
	}
	if len(m.MapSint32Sint32) > 0 {
		for k, v := range m.MapSint32Sint32 {
			_ = k
			_ = v
			mapEntrySize := 1 + protohelpers.SizeOfZigzag(uint64(k)) + 1 + protohelpers.SizeOfZigzag(uint64(v))
			n += mapEntrySize + 2 + protohelpers.SizeOfVarint(uint64(mapEntrySize))
		}
	}
	if len(m.MapSint64Sint64) > 0 {
		for k, v := range m.MapSint64Sint64 {
			_ = k
			_ = v
			mapEntrySize := 1 + protohelpers.SizeOfZigzag(uint64(k)) + 1 + protohelpers.SizeOfZigzag(uint64(v))
			n += mapEntrySize + 2 + protohelpers.SizeOfVarint(uint64(mapEntrySize))
		}
	}
	if len(m.MapFixed32Fixed32) > 0 {
		for k, v := range m.MapFixed32Fixed32 {
			_ = k
			_ = v
			mapEntrySize := 1 + 4 + 1 + 4
			n += mapEntrySize + 2 + protohelpers.SizeOfVarint(uint64(mapEntrySize))
		}
	}
	if len(m.MapFixed64Fixed64) > 0 {
		for k, v := range m.MapFixed64Fixed64 {
			_ = k
			_ = v
			mapEntrySize := 1 + 8 + 1 + 8
			n += mapEntrySize + 2 + protohelpers.SizeOfVarint(uint64(mapEntrySize))
		}
	}
	if len(m.MapSfixed32Sfixed32) > 0 {
		for k, v := range m.MapSfixed32Sfixed32 {
			_ = k
			_ = v
			mapEntrySize := 1 + 4 + 1 + 4
".
Definition s_conformance2_2 : string :=
"			n += mapEntrySize + 2 + protohelpers.SizeOfVarint(uint64(mapEntrySize))
		}
	}
	if len(m.MapSfixed64Sfixed64) > 0 {
		for k, v := range m.MapSfixed64Sfixed64 {
			_ = k
			_ = v
			mapEntrySize := 1 + 8 + 1 + 8
			n += mapEntrySize + 2 + protohelpers.SizeOfVarint(uint64(mapEntrySize))
		}
	}
	if len(m.MapInt32Float) > 0 {
		for k, v := range m.MapInt32Float {
			_ = k
			_ = v
			mapEntrySize := 1 + protohelpers.SizeOfVarint(uint64(k)) + 1 + 4
			n += mapEntrySize + 2 + protohelpers.SizeOfVarint(uint64(mapEntrySize))
		}
	}
	if len(m.MapInt32Double) > 0 {
		for k, v := range m.MapInt32Double {
			_ = k
			_ = v
			mapEntrySize := 1 + protohelpers.SizeOfVarint(uint64(k)) + 1 + 8
			n += mapEntrySize + 2 + protohelpers.SizeOfVarint(uint64(mapEntrySize))
		}
	}
	if len(m.MapBoolBool) > 0 {
		for k, v := range m.MapBoolBool {
			_ = k
			_ = v
			mapEntrySize := 1 + 1 + 1 + 1
			n += mapEntrySize + 2 + protohelpers.SizeOfVarint(uint64(mapEntrySize))
		}
	}
	if len(m.MapStringString) > 0 {
		for k, v := range m.MapStringString {
			_ = k
			_ = v
			mapEntrySize := 1 + len(k) + protohelpers.SizeOfVarint(uint64(len(k))) + 1 + len(v) + protohelpers.SizeOfVarint(uint64(len(v)))
			n += mapEntrySize + 2 + protohelpers.SizeOfVarint(uint64(mapEntrySize))
		}
	}
	if len(m.MapStringBytes) > 0 {
		for k, v := range m.MapStringBytes {
			_ = k
			_ = v
			l = 1 + len(v) + protohelpers.SizeOfVarint(uint64(len(v)))
			mapEntrySize := 1 + len(k) + protohelpers.SizeOfVarint(uint64(len(k))) + l
			n += mapEntrySize + 2 + protohelpers.SizeOfVarint(uint64(mapEntrySize))
		}
	}
	if len(m.MapStringNestedMessage) > 0 {
		for k, v := range m.MapStringNestedMessage {
			_ = k
			_ = v
			l = 0
			if v != nil {
				l = v.SizeVT()
			}
			l += 1 + protohelpers.SizeOfVarint(uint64(l))
			mapEntrySize := 1 + len(k) + protohelpers.SizeOfVarint(uint64(len(k))) + l
			n += mapEntrySize + 2 + protohelpers.SizeOfVarint(uint64(mapEntrySize))
		}
	}
	if len(m.MapStringForeignMessage) > 0 {
		for k, v := range m.MapStringForeignMessage {
			_ = k
			_ = v
			l = 0
			if v != nil {
				l = v.SizeVT()
			}
			l += 1 + protohelpers.SizeOfVarint(uint64(l))
			mapEntrySize := 1 + len(k) + protohelpers.SizeOfVarint(uint64(len(k))) + l
			n += mapEntrySize + 2 + protohelpers.SizeOfVarint(uint64(mapEntrySize))
		}
	}
	if len(m.MapStringNestedEnum) > 0 {
		for k, v := range m.MapStringNestedEnum {
			_ = k
			_ = v
			mapEntrySize := 1 + len(k) + protohelpers.SizeOfVarint(uint64(len(k))) + 1 + protohelpers.SizeOfVarint(uint64(v))
			n += mapEntrySize + 2 + protohelpers.SizeOfVarint(uint64(mapEntrySize))
		}
	}
	if len(m.MapStringForeignEnum) > 0 {
		for k, v := range m.MapStringForeignEnum {
			_ = k
			_ = v
			mapEntrySize := 1 + len(k) + protohelpers.SizeOfVarint(uint64(len(k))) + 1 + protohelpers.SizeOfVarint(uint64(v))
			n += mapEntrySize + 2 + protohelpers.SizeOfVarint(uint64(mapEntrySize))
		}
	}
	if len(m.PackedInt32) > 0 {
		l = 0
		for _, e := range m.PackedInt32 {
			l += protohelpers.SizeOfVarint(uint64(e))
		}
		n += 2 + protohelpers.SizeOfVarint(uint64(l)) + l
	}
	if len(m.PackedInt64) > 0 {
		l = 0
		for _, e := range m.PackedInt64 {
			l += protohelpers.SizeOfVarint(uint64(e))
		}
		n += 2 + protohelpers.SizeOfVarint(uint64(l)) + l
	}
	if len(m.PackedUint32) > 0 {
		l = 0
		for _, e := range m.PackedUint32 {
			l += protohelpers.SizeOfVarint(uint64(e))
		}
		n += 2 + protohelpers.SizeOfVarint(uint64(l)) + l
	}
	if len(m.PackedUint64) > 0 {
		l = 0
		for _, e := range m.PackedUint64 {
			l += protohelpers.SizeOfVarint(uint64(e))
		}
		n += 2 + protohelpers.SizeOfVarint(uint64(l)) + l
	}
	if len(m.PackedSint32) > 0 {
		l = 0
		for _, e := range m.PackedSint32 {
			l += protohelpers.SizeOfZigzag(uint64(e))
		}
		n += 2 + protohelpers.SizeOfVarint(uint64(l)) + l
	}
	if len(m.PackedSint64) > 0 {
		l = 0
		for _, e := range m.PackedSint64 {
			l += protohelpers.SizeOfZigzag(uint64(e))
		}
		n += 2 + protohelpers.SizeOfVarint(uint64(l)) + l
	}
	if len(m.PackedFixed32) > 0 {
		n += 2 + protohelpers.SizeOfVarint(uint64(len(m.PackedFixed32)*4)) + len(m.PackedFixed32)*4
	}
	if len(m.PackedFixed64) > 0 {
		n += 2 + protohelpers.SizeOfVarint(uint64(len(m.PackedFixed64)*8)) + len(m.PackedFixed64)*8
	}
	if len(m.PackedSfixed32) > 0 {
		n += 2 + protohelpers.SizeOfVarint(uint64(len(m.PackedSfixed32)*4)) + len(m.PackedSfixed32)*4
	}
	if len(m.PackedSfixed64) > 0 {
		n += 2 + protohelpers.SizeOfVarint(uint64(len(m.PackedSfixed64)*8)) + len(m.PackedSfixed64)*8
	}
	if len(m.PackedFloat) > 0 {
		n += 2 + protohelpers.SizeOfVarint(uint64(len(m.PackedFloat)*4)) + len(m.PackedFloat)*4
	}
	if len(m.PackedDouble) > 0 {
		n += 2 + protohelpers.SizeOfVarint(uint64(len(m.PackedDouble)*8)) + len(m.PackedDouble)*8
	}
	if len(m.PackedBool) > 0 {
		n += 2 + protohelpers.SizeOfVarint(uint64(len(m.PackedBool))) + len(m.PackedBool)*1
	}
	if len(m.PackedNestedEnum) > 0 {
		l = 0
		for _, e := range m.PackedNestedEnum {
			l += protohelpers.SizeOfVarint(uint64(e))
		}
		n += 2 + protohelpers.SizeOfVarint(uint64(l)) + l
	}
	if len(m.UnpackedInt32) > 0 {
		for _, e := range m.UnpackedInt32 {
			n += 2 + protohelpers.SizeOfVarint(uint64(e))
		}
	}
	if len(m.UnpackedInt64) > 0 {
		for _, e := range m.UnpackedInt64 {
			n += 2 + protohelpers.SizeOfVarint(uint64(e))
		}
	}
	if len(m.UnpackedUint32) > 0 {
		for _, e := range m.UnpackedUint32 {
			n += 2 + protohelpers.SizeOfVarint(uint64(e))
		}
	}
	if len(m.UnpackedUint64) > 0 {
		for _, e := range m.UnpackedUint64 {
			n += 2 + protohelpers.SizeOfVarint(uint64(e))
		}
	}
	if len(m.UnpackedSint32) > 0 {
		for _, e := range m.UnpackedSint32 {
			n += 2 + protohelpers.SizeOfZigzag(uint64(e))
		}
	}
	if len(m.UnpackedSint64) > 0 {
		for _, e := range m.UnpackedSint64 {
			n += 2 + protohelpers.SizeOfZigzag(uint64(e))
		}
	}
	if len(m.UnpackedFixed32) > 0 {
		n += 6 * len(m.UnpackedFixed32)
	}
	if len(m.UnpackedFixed64) > 0 {
		n += 10 * len(m.UnpackedFixed64)
	}
	if len(m.UnpackedSfixed32) > 0 {
		n += 6 * len(m.UnpackedSfixed32)
	}
	if len(m.UnpackedSfixed64) > 0 {
		n += 10 * len(m.UnpackedSfixed64)
	}
	if len(m.UnpackedFloat) > 0 {
		n += 6 * len(m.UnpackedFloat)
	}
	if len(m.UnpackedDouble) > 0 {
		n += 10 * len(m.UnpackedDouble)
	}
	if len(m.UnpackedBool) > 0 {
		n += 3 * len(m.UnpackedBool)
	}
	if len(m.UnpackedNestedEnum) > 0 {
		for _, e := range m.UnpackedNestedEnum {
			n += 2 + protohelpers.SizeOfVarint(uint64(e))
		}
	}
	if vtmsg, ok := m.OneofField.(interface{ SizeVT() int }); ok {
		n += vtmsg.SizeVT()
	}
	if m.Data != nil {
		l = m.Data.SizeVT()
		n += l + 4
	}
	if m.DefaultInt32 != nil {
		n += 2 + protohelpers.SizeOfVarint(uint64(*m.DefaultInt32))
	}
	if m.DefaultInt64 != nil {
		n += 2 + protohelpers.SizeOfVarint(uint64(*m.DefaultInt64))
	}
	if m.DefaultUint32 != nil {
		n += 2 + protohelpers.SizeOfVarint(uint64(*m.DefaultUint32))
	}
	if m.DefaultUint64 != nil {
		n += 2 + protohelpers.SizeOfVarint(uint64(*m.DefaultUint64))
	}
	if m.DefaultSint32 != nil {
		n += 2 + protohelpers.SizeOfZigzag(uint64(*m.DefaultSint32))
	}
	if m.DefaultSint64 != nil {
		n += 2 + protohelpers.SizeOfZigzag(uint64(*m.DefaultSint64))
	}
	if m.DefaultFixed32 != nil {
		n += 6
	}
	if m.DefaultFixed64 != nil {
		n += 10
	}
	if m.DefaultSfixed32 != nil {
		n += 6
	}
	if m.DefaultSfixed64 != nil {
		n += 10
	}
	if m.DefaultFloat != nil {
		n += 6
	}
	if m.DefaultDouble != nil {
		n += 10
	}
	if m.DefaultBool != nil {
		n += 3
	}
	if m.DefaultString != nil {
		l = len(*m.DefaultString)
		n += 2 + l + protohelpers.SizeOfVarint(uint64(l))
	}
	if m.DefaultBytes != nil {
		l = len(m.DefaultBytes)
		n += 2 + l + protohelpers.SizeOfVarint(uint64(l))
	}
	if m.Fieldname1 != nil {
		n += 2 + protohelpers.SizeOfVarint(uint64(*m.Fieldname1))
	}
	if m.FieldName2 != nil {
		n += 2 + protohelpers.SizeOfVarint(uint64(*m.FieldName2))
	}
	if m.XFieldName3 != nil {
		n += 2 + protohelpers.SizeOfVarint(uint64(*m.XFieldName3))
	}
	if m.Field_Name4_ != nil {
".
Definition s_conformance2_3 : string :=
"		n += 2 + protohelpers.SizeOfVarint(uint64(*m.Field_Name4_))
	}
	if m.Field0Name5 != nil {
		n += 2 + protohelpers.SizeOfVarint(uint64(*m.Field0Name5))
	}
	if m.Field_0Name6 != nil {
		n += 2 + protohelpers.SizeOfVarint(uint64(*m.Field_0Name6))
	}
	if m.FieldName7 != nil {
		n += 2 + protohelpers.SizeOfVarint(uint64(*m.FieldName7))
	}
	if m.FieldName8 != nil {
		n += 2 + protohelpers.SizeOfVarint(uint64(*m.FieldName8))
	}
	if m.Field_Name9 != nil {
		n += 2 + protohelpers.SizeOfVarint(uint64(*m.Field_Name9))
	}
	if m.Field_Name10 != nil {
		n += 2 + protohelpers.SizeOfVarint(uint64(*m.Field_Name10))
	}
	if m.FIELD_NAME11 != nil {
		n += 2 + protohelpers.SizeOfVarint(uint64(*m.FIELD_NAME11))
	}
	if m.FIELDName12 != nil {
		n += 2 + protohelpers.SizeOfVarint(uint64(*m.FIELDName12))
	}
	if m.XFieldName13 != nil {
		n += 2 + protohelpers.SizeOfVarint(uint64(*m.XFieldName13))
	}
	if m.X_FieldName14 != nil {
		n += 2 + protohelpers.SizeOfVarint(uint64(*m.X_FieldName14))
	}
	if m.Field_Name15 != nil {
		n += 2 + protohelpers.SizeOfVarint(uint64(*m.Field_Name15))
	}
	if m.Field__Name16 != nil {
		n += 2 + protohelpers.SizeOfVarint(uint64(*m.Field__Name16))
	}
	if m.FieldName17__ != nil {
		n += 2 + protohelpers.SizeOfVarint(uint64(*m.FieldName17__))
	}
	if m.FieldName18__ != nil {
		n += 2 + protohelpers.SizeOfVarint(uint64(*m.FieldName18__))
	}
	n += len(m.unknownFields)
	return n
}
func (m *TestAllTypesProto2_OneofUint32) SizeVT() (n int) {
	if m == nil {
		return 0
	}
	var l int
	_ = l
	n += 2 + protohelpers.SizeOfVarint(uint64(m.OneofUint32))
	return n
}
func (m *TestAllTypesProto2_OneofNestedMessage) SizeVT() (n int) {
	if m == nil {
		return 0
	}
	var l int
	_ = l
	if m.OneofNestedMessage != nil {
		l = m.OneofNestedMessage.SizeVT()
		n += 2 + l + protohelpers.SizeOfVarint(uint64(l))
	} else {
		n += 3
	}
	return n
}
func (m *TestAllTypesProto2_OneofString) SizeVT() (n int) {
	if m == nil {
		return 0
	}
	var l int
	_ = l
	l = len(m.OneofString)
	n += 2 + l + protohelpers.SizeOfVarint(uint64(l))
	return n
}
func (m *TestAllTypesProto2_OneofBytes) SizeVT() (n int) {
	if m == nil {
		return 0
	}
	var l int
	_ = l
	l = len(m.OneofBytes)
	n += 2 + l + protohelpers.SizeOfVarint(uint64(l))
	return n
}
func (m *TestAllTypesProto2_OneofBool) SizeVT() (n int) {
	if m == nil {
		return 0
	}
	var l int
	_ = l
	n += 3
	return n
}
func (m *TestAllTypesProto2_OneofUint64) SizeVT() (n int) {
	if m == nil {
		return 0
	}
	var l int
	_ = l
	n += 2 + protohelpers.SizeOfVarint(uint64(m.OneofUint64))
	return n
}
func (m *TestAllTypesProto2_OneofFloat) SizeVT() (n int) {
	if m == nil {
		return 0
	}
	var l int
	_ = l
	n += 6
	return n
}
func (m *TestAllTypesProto2_OneofDouble) SizeVT() (n int) {
	if m == nil {
		return 0
	}
	var l int
	_ = l
	n += 10
	return n
}
func (m *TestAllTypesProto2_OneofEnum) SizeVT() (n int) {
	if m == nil {
		return 0
	}
	var l int
	_ = l
	n += 2 + protohelpers.SizeOfVarint(uint64(m.OneofEnum))
	return n
}
func (m *ForeignMessageProto2) SizeVT() (n int) {
	if m == nil {
		return 0
	}
	var l int
	_ = l
	if m.C != nil {
		n += 1 + protohelpers.SizeOfVarint(uint64(*m.C))
	}
	n += len(m.unknownFields)
	return n
}
func (m *UnknownToTestAllTypes_OptionalGroup) SizeVT() (n int) {
	if m == nil {
		return 0
	}
	var l int
	_ = l
	if m.A != nil {
		n += 1 + protohelpers.SizeOfVarint(uint64(*m.A))
	}
	n += len(m.unknownFields)
	return n
}
func (m *UnknownToTestAllTypes) SizeVT() (n int) {
	if m == nil {
		return 0
	}
	var l int
	_ = l
	if m.OptionalInt32 != nil {
		n += 2 + protohelpers.SizeOfVarint(uint64(*m.OptionalInt32))
	}
	if m.OptionalString != nil {
		l = len(*m.OptionalString)
		n += 2 + l + protohelpers.SizeOfVarint(uint64(l))
	}
	if m.NestedMessage != nil {
		l = m.NestedMessage.SizeVT()
		n += 2 + l + protohelpers.SizeOfVarint(uint64(l))
	}
	if m.Optionalgroup != nil {
		l = m.Optionalgroup.SizeVT()
		n += l + 4
	}
	if m.OptionalBool != nil {
		n += 3
	}
	if len(m.RepeatedInt32) > 0 {
		for _, e := range m.RepeatedInt32 {
			n += 2 + protohelpers.SizeOfVarint(uint64(e))
		}
	}
	n += len(m.unknownFields)
	return n
}
func (m *NullHypothesisProto2) SizeVT() (n int) {
	if m == nil {
		return 0
	}
	var l int
	_ = l
	n += len(m.unknownFields)
	return n
}
func (m *EnumOnlyProto2) SizeVT() (n int) {
	if m == nil {
		return 0
	}
	var l int
	_ = l
	n += len(m.unknownFields)
	return n
}
func (m *OneStringProto2) SizeVT() (n int) {
	if m == nil {
		return 0
	}
	var l int
	_ = l
	if m.Data != nil {
		l = len(*m.Data)
		n += 1 + l + protohelpers.SizeOfVarint(uint64(l))
	}
	n += len(m.unknownFields)
	return n
}
".
Definition s_conformance2 : list string := [s_conformance2_1; s_conformance2_2; s_conformance2_3].

(** /repo/conformance/internal/conformance/test_messages_proto3_vtproto.pb.go *)
Definition s_conformance3_1 : string :=
"func (m *TestAllTypesProto3_NestedMessage) SizeVT() (n int) {
	if m == nil {
		return 0
	}
	var l int
	_ = l
	if m.A != 0 {
		n += 1 + protohelpers.SizeOfVarint(uint64(m.A))
	}
	if m.Corecursive != nil {
		l = m.Corecursive.SizeVT()
		n += 1 + l + protohelpers.SizeOfVarint(uint64(l))
	}
	n += len(m.unknownFields)
	return n
}
func (m *TestAllTypesProto3) SizeVT() (n int) {
	if m == nil {
		return 0
	}
	var l int
	_ = l
	if m.OptionalInt32 != 0 {
		n += 1 + protohelpers.SizeOfVarint(uint64(m.OptionalInt32))
	}
	if m.OptionalInt64 != 0 {
		n += 1 + protohelpers.SizeOfVarint(uint64(m.OptionalInt64))
	}
	if m.OptionalUint32 != 0 {
		n += 1 + protohelpers.SizeOfVarint(uint64(m.OptionalUint32))
	}
	if m.OptionalUint64 != 0 {
		n += 1 + protohelpers.SizeOfVarint(uint64(m.OptionalUint64))
	}
	if m.OptionalSint32 != 0 {
		n += 1 + protohelpers.SizeOfZigzag(uint64(m.OptionalSint32))
	}
	if m.OptionalSint64 != 0 {
		n += 1 + protohelpers.SizeOfZigzag(uint64(m.OptionalSint64))
	}
	if m.OptionalFixed32 != 0 {
		n += 5
	}
	if m.OptionalFixed64 != 0 {
		n += 9
	}
	if m.OptionalSfixed32 != 0 {
		n += 5
	}
	if m.OptionalSfixed64 != 0 {
		n += 9
	}
	if m.OptionalFloat != 0 {
		n += 5
	}
	if m.OptionalDouble != 0 {
		n += 9
	}
	if m.OptionalBool {
		n += 2
	}
	l = len(m.OptionalString)
	if l > 0 {
		n += 1 + l + protohelpers.SizeOfVarint(uint64(l))
	}
	l = len(m.OptionalBytes)
	if l > 0 {
		n += 1 + l + protohelpers.SizeOfVarint(uint64(l))
	}
	if m.OptionalNestedMessage != nil {
		l = m.OptionalNestedMessage.SizeVT()
		n += 2 + l + protohelpers.SizeOfVarint(uint64(l))
	}
	if m.OptionalForeignMessage != nil {
		l = m.OptionalForeignMessage.SizeVT()
		n += 2 + l + protohelpers.SizeOfVarint(uint64(l))
	}
	if m.OptionalNestedEnum != 0 {
		n += 2 + protohelpers.SizeOfVarint(uint64(m.OptionalNestedEnum))
	}
	if m.OptionalForeignEnum != 0 {
		n += 2 + protohelpers.SizeOfVarint(uint64(m.OptionalForeignEnum))
	}
	if m.OptionalAliasedEnum != 0 {
		n += 2 + protohelpers.SizeOfVarint(uint64(m.OptionalAliasedEnum))
	}
	l = len(m.OptionalStringPiece)
	if l > 0 {
		n += 2 + l + protohelpers.SizeOfVarint(uint64(l))
	}
	l = len(m.OptionalCord)
	if l > 0 {
		n += 2 + l + protohelpers.SizeOfVarint(uint64(l))
	}
	if m.RecursiveMessage != nil {
		l = m.RecursiveMessage.SizeVT()
		n += 2 + l + protohelpers.SizeOfVarint(uint64(l))
	}
	if len(m.RepeatedInt32) > 0 {
		l = 0
		for _, e := range m.RepeatedInt32 {
			l += protohelpers.SizeOfVarint(uint64(e))
		}
		n += 2 + protohelpers.SizeOfVarint(uint64(l)) + l
	}
	if len(m.RepeatedInt64) > 0 {
		l = 0
		for _, e := range m.RepeatedInt64 {
			l += protohelpers.SizeOfVarint(uint64(e))
		}
		n += 2 + protohelpers.SizeOfVarint(uint64(l)) + l
	}
	if len(m.RepeatedUint32) > 0 {
		l = 0
		for _, e := range m.RepeatedUint32 {
			l += protohelpers.SizeOfVarint(uint64(e))
		}
		n += 2 + protohelpers.SizeOfVarint(uint64(l)) + l
	}
	if len(m.RepeatedUint64) > 0 {
		l = 0
		for _, e := range m.RepeatedUint64 {
			l += protohelpers.SizeOfVarint(uint64(e))
		}
		n += 2 + protohelpers.SizeOfVarint(uint64(l)) + l
	}
	if len(m.RepeatedSint32) > 0 {
		l = 0
		for _, e := range m.RepeatedSint32 {
			l += protohelpers.SizeOfZigzag(uint64(e))
		}
		n += 2 + protohelpers.SizeOfVarint(uint64(l)) + l
	}
	if len(m.RepeatedSint64) > 0 {
		l = 0
		for _, e := range m.RepeatedSint64 {
			l += protohelpers.SizeOfZigzag(uint64(e))
		}
		n += 2 + protohelpers.SizeOfVarint(uint64(l)) + l
	}
	if len(m.RepeatedFixed32) > 0 {
		n += 2 + protohelpers.SizeOfVarint(uint64(len(m.RepeatedFixed32)*4)) + len(m.RepeatedFixed32)*4
	}
	if len(m.RepeatedFixed64) > 0 {
		n += 2 + protohelpers.SizeOfVarint(uint64(len(m.RepeatedFixed64)*8)) + len(m.RepeatedFixed64)*8
	}
	if len(m.RepeatedSfixed32) > 0 {
		n += 2 + protohelpers.SizeOfVarint(uint64(len(m.RepeatedSfixed32)*4)) + len(m.RepeatedSfixed32)*4
	}
	if len(m.RepeatedSfixed64) > 0 {
		n += 2 + protohelpers.SizeOfVarint(uint64(len(m.RepeatedSfixed64)*8)) + len(m.RepeatedSfixed64)*8
	}
	if len(m.RepeatedFloat) > 0 {
		n += 2 + protohelpers.SizeOfVarint(uint64(len(m.RepeatedFloat)*4)) + len(m.RepeatedFloat)*4
	}
	if len(m.RepeatedDouble) > 0 {
		n += 2 + protohelpers.SizeOfVarint(uint64(len(m.RepeatedDouble)*8)) + len(m.RepeatedDouble)*8
	}
	if len(m.RepeatedBool) > 0 {
		n += 2 + protohelpers.SizeOfVarint(uint64(len(m.RepeatedBool))) + len(m.RepeatedBool)*1
	}
	if len(m.RepeatedString) > 0 {
		for _, s := range m.RepeatedString {
			l = len(s)
			n += 2 + l + protohelpers.SizeOfVarint(uint64(l))
		}
	}
	if len(m.RepeatedBytes) > 0 {
		for _, b := range m.RepeatedBytes {
			l = len(b)
			n += 2 + l + protohelpers.SizeOfVarint(uint64(l))
		}
	}
	if len(m.RepeatedNestedMessage) > 0 {
		for _, e := range m.RepeatedNestedMessage {
			l = e.SizeVT()
			n += 2 + l + protohelpers.SizeOfVarint(uint64(l))
		}
	}
	if len(m.RepeatedForeignMessage) > 0 {
		for _, e := range m.RepeatedForeignMessage {
			l = e.SizeVT()
			n += 2 + l + protohelpers.SizeOfVarint(uint64(l))
		}
	}
	if len(m.RepeatedNestedEnum) > 0 {
		l = 0
		for _, e := range m.RepeatedNestedEnum {
			l += protohelpers.SizeOfVarint(uint64(e))
		}
		n += 2 + protohelpers.SizeOfVarint(uint64(l)) + l
	}
	if len(m.RepeatedForeignEnum) > 0 {
		l = 0
		for _, e := range m.RepeatedForeignEnum {
			l += protohelpers.SizeOfVarint(uint64(e))
		}
		n += 2 + protohelpers.SizeOfVarint(uint64(l)) + l
	}
	if len(m.RepeatedStringPiece) > 0 {
		for _, s := range m.RepeatedStringPiece {
			l = len(s)
			n += 2 + l + protohelpers.SizeOfVarint(uint64(l))
		}
	}
	if len(m.RepeatedCord) > 0 {
		for _, s := range m.RepeatedCord {
			l = len(s)
			n += 2 + l + protohelpers.SizeOfVarint(uint64(l))
		}
	}
	if len(m.MapInt32Int32) > 0 {
		for k, v := range m.MapInt32Int32 {
			_ = k
			_ = v
			mapEntrySize := 1 + protohelpers.SizeOfVarint(uint64(k)) + 1 + protohelpers.SizeOfVarint(uint64(v))
			n += mapEntrySize + 2 + protohelpers.SizeOfVarint(uint64(mapEntrySize))
		}
	}
	if len(m.MapInt64Int64) > 0 {
		for k, v := range m.MapInt64Int64 {
			_ = k
			_ = v
			mapEntrySize := 1 + protohelpers.SizeOfVarint(uint64(k)) + 1 + protohelpers.SizeOfVarint(uint64(v))
			n += mapEntrySize + 2 + protohelpers.SizeOfVarint(uint64(mapEntrySize))
		}
	}
	if len(m.MapUint32Uint32) > 0 {
		for k, v := range m.MapUint32Uint32 {
			_ = k
			_ = v
			mapEntrySize := 1 + protohelpers.SizeOfVarint(uint64(k)) + 1 + protohelpers.SizeOfVarint(uint64(v))
			n += mapEntrySize + 2 + protohelpers.SizeOfVarint(uint64(mapEntrySize))
		}
	}
	if len(m.MapUint64Uint64) > 0 {
		for k, v := range m.MapUint64Uint64 {
			_ = k
			_ = v
			mapEntrySize := 1 + protohelpers.SizeOfVarint(uint64(k)) + 1 + protohelpers.SizeOfVarint(uint64(v))
			n += mapEntrySize + 2 + protohelpers.SizeOfVarint(uint64(mapEntrySize))
		}
	}
	if len(m.MapSint32Sint32) > 0 {
		for k, v := range m.MapSint32Sint32 {
			_ = k
			_ = v
			mapEntrySize := 1 + protohelpers.SizeOfZigzag(uint64(k)) + 1 + protohelpers.SizeOfZigzag(uint64(v))
			n += mapEntrySize + 2 + protohelpers.SizeOfVarint(uint64(mapEntrySize))
		}
	}
	if len(m.MapSint64Sint64) > 0 {
		for k, v := range m.MapSint64Sint64 {
			_ = k
			_ = v
			mapEntrySize := 1 + protohelpers.SizeOfZigzag(uint64(k)) + 1 + protohelpers.SizeOfZigzag(uint64(v))
			n += mapEntrySize + 2 + protohelpers.SizeOfVarint(uint64(mapEntrySize))
		}
	}
	if len(m.MapFixed32Fixed32) > 0 {
		for k, v := range m.MapFixed32Fixed32 {
			_ = k
			_ = v
			mapEntrySize := 1 + 4 + 1 + 4
			n += mapEntrySize + 2 + protohelpers.SizeOfVarint(uint64(mapEntrySize))
		}
	}
	if len(m.MapFixed64Fixed64) > 0 {
		for k, v := range m.MapFixed64Fixed64 {
			_ = k
			_ = v
			mapEntrySize := 1 + 8 + 1 + 8
			n += mapEntrySize + 2 + protohelpers.SizeOfVarint(uint64(mapEntrySize))
		}
	}
	if len(m.MapSfixed32Sfixed32) > 0 {
		for k, v := range m.MapSfixed32Sfixed32 {
			_ = k
			_ = v
			mapEntrySize := 1 + 4 + 1 + 4
			n += mapEntrySize + 2 + protohelpers.SizeOfVarint(uint64(mapEntrySize))
		}
	}
	if len(m.MapSfixed64Sfixed64) > 0 {
".
Definition s_conformance3_2 : string :=
"		for k, v := range m.MapSfixed64Sfixed64 {
			_ = k
			_ = v
			mapEntrySize := 1 + 8 + 1 + 8
			n += mapEntrySize + 2 + protohelpers.SizeOfVarint(uint64(mapEntrySize))
		}
	}
	if len(m.MapInt32Float) > 0 {
		for k, v := range m.MapInt32Float {
			_ = k
			_ = v
			mapEntrySize := 1 + protohelpers.SizeOfVarint(uint64(k)) + 1 + 4
			n += mapEntrySize + 2 + protohelpers.SizeOfVarint(uint64(mapEntrySize))
		}
	}
	if len(m.MapInt32Double) > 0 {
		for k, v := range m.MapInt32Double {
			_ = k
			_ = v
			mapEntrySize := 1 + protohelpers.SizeOfVarint(uint64(k)) + 1 + 8
			n += mapEntrySize + 2 + protohelpers.SizeOfVarint(uint64(mapEntrySize))
		}
	}
	if len(m.MapBoolBool) > 0 {
		for k, v := range m.MapBoolBool {
			_ = k
			_ = v
			mapEntrySize := 1 + 1 + 1 + 1
			n += mapEntrySize + 2 + protohelpers.SizeOfVarint(uint64(mapEntrySize))
		}
	}
	if len(m.MapStringString) > 0 {
		for k, v := range m.MapStringString {
			_ = k
			_ = v
			mapEntrySize := 1 + len(k) + protohelpers.SizeOfVarint(uint64(len(k))) + 1 + len(v) + protohelpers.SizeOfVarint(uint64(len(v)))
			n += mapEntrySize + 2 + protohelpers.SizeOfVarint(uint64(mapEntrySize))
		}
	}
	if len(m.MapStringBytes) > 0 {
		for k, v := range m.MapStringBytes {
			_ = k
			_ = v
			l = 1 + len(v) + protohelpers.SizeOfVarint(uint64(len(v)))
			mapEntrySize := 1 + len(k) + protohelpers.SizeOfVarint(uint64(len(k))) + l
			n += mapEntrySize + 2 + protohelpers.SizeOfVarint(uint64(mapEntrySize))
		}
	}
	if len(m.MapStringNestedMessage) > 0 {
		for k, v := range m.MapStringNestedMessage {
			_ = k
			_ = v
			l = 0
			if v != nil {
				l = v.SizeVT()
			}
			l += 1 + protohelpers.SizeOfVarint(uint64(l))
			mapEntrySize := 1 + len(k) + protohelpers.SizeOfVarint(uint64(len(k))) + l
			n += mapEntrySize + 2 + protohelpers.SizeOfVarint(uint64(mapEntrySize))
		}
	}
	if len(m.MapStringForeignMessage) > 0 {
		for k, v := range m.MapStringForeignMessage {
			_ = k
			_ = v
			l = 0
			if v != nil {
				l = v.SizeVT()
			}
			l += 1 + protohelpers.SizeOfVarint(uint64(l))
			mapEntrySize := 1 + len(k) + protohelpers.SizeOfVarint(uint64(len(k))) + l
			n += mapEntrySize + 2 + protohelpers.SizeOfVarint(uint64(mapEntrySize))
		}
	}
	if len(m.MapStringNestedEnum) > 0 {
		for k, v := range m.MapStringNestedEnum {
			_ = k
			_ = v
			mapEntrySize := 1 + len(k) + protohelpers.SizeOfVarint(uint64(len(k))) + 1 + protohelpers.SizeOfVarint(uint64(v))
			n += mapEntrySize + 2 + protohelpers.SizeOfVarint(uint64(mapEntrySize))
		}
	}
	if len(m.MapStringForeignEnum) > 0 {
		for k, v := range m.MapStringForeignEnum {
			_ = k
			_ = v
			mapEntrySize := 1 + len(k) + protohelpers.SizeOfVarint(uint64(len(k))) + 1 + protohelpers.SizeOfVarint(uint64(v))
			n += mapEntrySize + 2 + protohelpers.SizeOfVarint(uint64(mapEntrySize))
		}
	}
	if len(m.PackedInt32) > 0 {
		l = 0
		for _, e := range m.PackedInt32 {
			l += protohelpers.SizeOfVarint(uint64(e))
		}
		n += 2 + protohelpers.SizeOfVarint(uint64(l)) + l
	}
	if len(m.PackedInt64) > 0 {
		l = 0
		for _, e := range m.PackedInt64 {
			l += protohelpers.SizeOfVarint(uint64(e))
		}
		n += 2 + protohelpers.SizeOfVarint(uint64(l)) + l
	}
	if len(m.PackedUint32) > 0 {
		l = 0
		for _, e := range m.PackedUint32 {
			l += protohelpers.SizeOfVarint(uint64(e))
		}
		n += 2 + protohelpers.SizeOfVarint(uint64(l)) + l
	}
	if len(m.PackedUint64) > 0 {
		l = 0
		for _, e := range m.PackedUint64 {
			l += protohelpers.SizeOfVarint(uint64(e))
		}
		n += 2 + protohelpers.SizeOfVarint(uint64(l)) + l
	}
	if len(m.PackedSint32) > 0 {
		l = 0
		for _, e := range m.PackedSint32 {
			l += protohelpers.SizeOfZigzag(uint64(e))
		}
		n += 2 + protohelpers.SizeOfVarint(uint64(l)) + l
	}
	if len(m.PackedSint64) > 0 {
		l = 0
		for _, e := range m.PackedSint64 {
			l += protohelpers.SizeOfZigzag(uint64(e))
		}
		n += 2 + protohelpers.SizeOfVarint(uint64(l)) + l
	}
	if len(m.PackedFixed32) > 0 {
		n += 2 + protohelpers.SizeOfVarint(uint64(len(m.PackedFixed32)*4)) + len(m.PackedFixed32)*4
	}
	if len(m.PackedFixed64) > 0 {
		n += 2 + protohelpers.SizeOfVarint(uint64(len(m.PackedFixed64)*8)) + len(m.PackedFixed64)*8
	}
	if len(m.PackedSfixed32) > 0 {
		n += 2 + protohelpers.SizeOfVarint(uint64(len(m.PackedSfixed32)*4)) + len(m.PackedSfixed32)*4
	}
	if len(m.PackedSfixed64) > 0 {
		n += 2 + protohelpers.SizeOfVarint(uint64(len(m.PackedSfixed64)*8)) + len(m.PackedSfixed64)*8
	}
	if len(m.PackedFloat) > 0 {
		n += 2 + protohelpers.SizeOfVarint(uint64(len(m.PackedFloat)*4)) + len(m.PackedFloat)*4
	}
	if len(m.PackedDouble) > 0 {
		n += 2 + protohelpers.SizeOfVarint(uint64(len(m.PackedDouble)*8)) + len(m.PackedDouble)*8
	}
	if len(m.PackedBool) > 0 {
		n += 2 + protohelpers.SizeOfVarint(uint64(len(m.PackedBool))) + len(m.PackedBool)*1
	}
	if len(m.PackedNestedEnum) > 0 {
		l = 0
		for _, e := range m.PackedNestedEnum {
			l += protohelpers.SizeOfVarint(uint64(e))
		}
		n += 2 + protohelpers.SizeOfVarint(uint64(l)) + l
	}
	if len(m.UnpackedInt32) > 0 {
		for _, e := range m.UnpackedInt32 {
			n += 2 + protohelpers.SizeOfVarint(uint64(e))
		}
	}
	if len(m.UnpackedInt64) > 0 {
		for _, e := range m.UnpackedInt64 {
			n += 2 + protohelpers.SizeOfVarint(uint64(e))
		}
	}
	if len(m.UnpackedUint32) > 0 {
		for _, e := range m.UnpackedUint32 {
			n += 2 + protohelpers.SizeOfVarint(uint64(e))
		}
	}
	if len(m.UnpackedUint64) > 0 {
		for _, e := range m.UnpackedUint64 {
			n += 2 + protohelpers.SizeOfVarint(uint64(e))
		}
	}
	if len(m.UnpackedSint32) > 0 {
		for _, e := range m.UnpackedSint32 {
			n += 2 + protohelpers.SizeOfZigzag(uint64(e))
		}
	}
	if len(m.UnpackedSint64) > 0 {
		for _, e := range m.UnpackedSint64 {
			n += 2 + protohelpers.SizeOfZigzag(uint64(e))
		}
	}
	if len(m.UnpackedFixed32) > 0 {
		n += 6 * len(m.UnpackedFixed32)
	}
	if len(m.UnpackedFixed64) > 0 {
		n += 10 * len(m.UnpackedFixed64)
	}
	if len(m.UnpackedSfixed32) > 0 {
		n += 6 * len(m.UnpackedSfixed32)
	}
	if len(m.UnpackedSfixed64) > 0 {
		n += 10 * len(m.UnpackedSfixed64)
	}
	if len(m.UnpackedFloat) > 0 {
		n += 6 * len(m.UnpackedFloat)
	}
	if len(m.UnpackedDouble) > 0 {
		n += 10 * len(m.UnpackedDouble)
	}
	if len(m.UnpackedBool) > 0 {
		n += 3 * len(m.UnpackedBool)
	}
	if len(m.UnpackedNestedEnum) > 0 {
		for _, e := range m.UnpackedNestedEnum {
			n += 2 + protohelpers.SizeOfVarint(uint64(e))
		}
	}
	if vtmsg, ok := m.OneofField.(interface{ SizeVT() int }); ok {
		n += vtmsg.SizeVT()
	}
	if m.OptionalBoolWrapper != nil {
		l = (*wrapperspb1.BoolValue)(m.OptionalBoolWrapper).SizeVT()
		n += 2 + l + protohelpers.SizeOfVarint(uint64(l))
	}
	if m.OptionalInt32Wrapper != nil {
		l = (*wrapperspb1.Int32Value)(m.OptionalInt32Wrapper).SizeVT()
		n += 2 + l + protohelpers.SizeOfVarint(uint64(l))
	}
	if m.OptionalInt64Wrapper != nil {
		l = (*wrapperspb1.Int64Value)(m.OptionalInt64Wrapper).SizeVT()
		n += 2 + l + protohelpers.SizeOfVarint(uint64(l))
	}
	if m.OptionalUint32Wrapper != nil {
		l = (*wrapperspb1.UInt32Value)(m.OptionalUint32Wrapper).SizeVT()
		n += 2 + l + protohelpers.SizeOfVarint(uint64(l))
	}
	if m.OptionalUint64Wrapper != nil {
		l = (*wrapperspb1.UInt64Value)(m.OptionalUint64Wrapper).SizeVT()
		n += 2 + l + protohelpers.SizeOfVarint(uint64(l))
	}
	if m.OptionalFloatWrapper != nil {
		l = (*wrapperspb1.FloatValue)(m.OptionalFloatWrapper).SizeVT()
		n += 2 + l + protohelpers.SizeOfVarint(uint64(l))
	}
	if m.OptionalDoubleWrapper != nil {
		l = (*wrapperspb1.DoubleValue)(m.OptionalDoubleWrapper).SizeVT()
		n += 2 + l + protohelpers.SizeOfVarint(uint64(l))
	}
	if m.OptionalStringWrapper != nil {
		l = (*wrapperspb1.StringValue)(m.OptionalStringWrapper).SizeVT()
		n += 2 + l + protohelpers.SizeOfVarint(uint64(l))
	}
	if m.OptionalBytesWrapper != nil {
		l = (*wrapperspb1.BytesValue)(m.OptionalBytesWrapper).SizeVT()
		n += 2 + l + protohelpers.SizeOfVarint(uint64(l))
	}
	if len(m.RepeatedBoolWrapper) > 0 {
		for _, e := range m.RepeatedBoolWrapper {
			l = (*wrapperspb1.BoolValue)(e).SizeVT()
			n += 2 + l + protohelpers.SizeOfVarint(uint64(l))
		}
	}
".
Definition s_conformance3_3 : string :=
"	if len(m.RepeatedInt32Wrapper) > 0 {
		for _, e := range m.RepeatedInt32Wrapper {
			l = (*wrapperspb1.Int32Value)(e).SizeVT()
			n += 2 + l + protohelpers.SizeOfVarint(uint64(l))
		}
	}
	if len(m.RepeatedInt64Wrapper) > 0 {
		for _, e := range m.RepeatedInt64Wrapper {
			l = (*wrapperspb1.Int64Value)(e).SizeVT()
			n += 2 + l + protohelpers.SizeOfVarint(uint64(l))
		}
	}
	if len(m.RepeatedUint32Wrapper) > 0 {
		for _, e := range m.RepeatedUint32Wrapper {
			l = (*wrapperspb1.UInt32Value)(e).SizeVT()
			n += 2 + l + protohelpers.SizeOfVarint(uint64(l))
		}
	}
	if len(m.RepeatedUint64Wrapper) > 0 {
		for _, e := range m.RepeatedUint64Wrapper {
			l = (*wrapperspb1.UInt64Value)(e).SizeVT()
			n += 2 + l + protohelpers.SizeOfVarint(uint64(l))
		}
	}
	if len(m.RepeatedFloatWrapper) > 0 {
		for _, e := range m.RepeatedFloatWrapper {
			l = (*wrapperspb1.FloatValue)(e).SizeVT()
			n += 2 + l + protohelpers.SizeOfVarint(uint64(l))
		}
	}
	if len(m.RepeatedDoubleWrapper) > 0 {
		for _, e := range m.RepeatedDoubleWrapper {
			l = (*wrapperspb1.DoubleValue)(e).SizeVT()
			n += 2 + l + protohelpers.SizeOfVarint(uint64(l))
		}
	}
	if len(m.RepeatedStringWrapper) > 0 {
		for _, e := range m.RepeatedStringWrapper {
			l = (*wrapperspb1.StringValue)(e).SizeVT()
			n += 2 + l + protohelpers.SizeOfVarint(uint64(l))
		}
	}
	if len(m.RepeatedBytesWrapper) > 0 {
		for _, e := range m.RepeatedBytesWrapper {
			l = (*wrapperspb1.BytesValue)(e).SizeVT()
			n += 2 + l + protohelpers.SizeOfVarint(uint64(l))
		}
	}
	if m.OptionalDuration != nil {
		l = (*durationpb1.Duration)(m.OptionalDuration).SizeVT()
		n += 2 + l + protohelpers.SizeOfVarint(uint64(l))
	}
	if m.OptionalTimestamp != nil {
		l = (*timestamppb1.Timestamp)(m.OptionalTimestamp).SizeVT()
		n += 2 + l + protohelpers.SizeOfVarint(uint64(l))
	}
	if m.OptionalFieldMask != nil {
		l = (*fieldmaskpb1.FieldMask)(m.OptionalFieldMask).SizeVT()
		n += 2 + l + protohelpers.SizeOfVarint(uint64(l))
	}
	if m.OptionalStruct != nil {
		l = (*structpb1.Struct)(m.OptionalStruct).SizeVT()
		n += 2 + l + protohelpers.SizeOfVarint(uint64(l))
	}
	if m.OptionalAny != nil {
		l = (*anypb1.Any)(m.OptionalAny).SizeVT()
		n += 2 + l + protohelpers.SizeOfVarint(uint64(l))
	}
	if m.OptionalValue != nil {
		l = (*structpb1.Value)(m.OptionalValue).SizeVT()
		n += 2 + l + protohelpers.SizeOfVarint(uint64(l))
	}
	if m.OptionalNullValue != 0 {
		n += 2 + protohelpers.SizeOfVarint(uint64(m.OptionalNullValue))
	}
	if len(m.RepeatedDuration) > 0 {
		for _, e := range m.RepeatedDuration {
			l = (*durationpb1.Duration)(e).SizeVT()
			n += 2 + l + protohelpers.SizeOfVarint(uint64(l))
		}
	}
	if len(m.RepeatedTimestamp) > 0 {
		for _, e := range m.RepeatedTimestamp {
			l = (*timestamppb1.Timestamp)(e).SizeVT()
			n += 2 + l + protohelpers.SizeOfVarint(uint64(l))
		}
	}
	if len(m.RepeatedFieldmask) > 0 {
		for _, e := range m.RepeatedFieldmask {
			l = (*fieldmaskpb1.FieldMask)(e).SizeVT()
			n += 2 + l + protohelpers.SizeOfVarint(uint64(l))
		}
	}
	if len(m.RepeatedAny) > 0 {
		for _, e := range m.RepeatedAny {
			l = (*anypb1.Any)(e).SizeVT()
			n += 2 + l + protohelpers.SizeOfVarint(uint64(l))
		}
	}
	if len(m.RepeatedValue) > 0 {
		for _, e := range m.RepeatedValue {
			l = (*structpb1.Value)(e).SizeVT()
			n += 2 + l + protohelpers.SizeOfVarint(uint64(l))
		}
	}
	if len(m.RepeatedListValue) > 0 {
		for _, e := range m.RepeatedListValue {
			l = (*structpb1.ListValue)(e).SizeVT()
			n += 2 + l + protohelpers.SizeOfVarint(uint64(l))
		}
	}
	if len(m.RepeatedStruct) > 0 {
		for _, e := range m.RepeatedStruct {
			l = (*structpb1.Struct)(e).SizeVT()
			n += 2 + l + protohelpers.SizeOfVarint(uint64(l))
		}
	}
	if m.Fieldname1 != 0 {
		n += 2 + protohelpers.SizeOfVarint(uint64(m.Fieldname1))
	}
	if m.FieldName2 != 0 {
		n += 2 + protohelpers.SizeOfVarint(uint64(m.FieldName2))
	}
	if m.XFieldName3 != 0 {
		n += 2 + protohelpers.SizeOfVarint(uint64(m.XFieldName3))
	}
	if m.Field_Name4_ != 0 {
		n += 2 + protohelpers.SizeOfVarint(uint64(m.Field_Name4_))
	}
	if m.Field0Name5 != 0 {
		n += 2 + protohelpers.SizeOfVarint(uint64(m.Field0Name5))
	}
	if m.Field_0Name6 != 0 {
		n += 2 + protohelpers.SizeOfVarint(uint64(m.Field_0Name6))
	}
	if m.FieldName7 != 0 {
		n += 2 + protohelpers.SizeOfVarint(uint64(m.FieldName7))
	}
	if m.FieldName8 != 0 {
		n += 2 + protohelpers.SizeOfVarint(uint64(m.FieldName8))
	}
	if m.Field_Name9 != 0 {
		n += 2 + protohelpers.SizeOfVarint(uint64(m.Field_Name9))
	}
	if m.Field_Name10 != 0 {
		n += 2 + protohelpers.SizeOfVarint(uint64(m.Field_Name10))
	}
	if m.FIELD_NAME11 != 0 {
		n += 2 + protohelpers.SizeOfVarint(uint64(m.FIELD_NAME11))
	}
	if m.FIELDName12 != 0 {
		n += 2 + protohelpers.SizeOfVarint(uint64(m.FIELDName12))
	}
	if m.XFieldName13 != 0 {
		n += 2 + protohelpers.SizeOfVarint(uint64(m.XFieldName13))
	}
	if m.X_FieldName14 != 0 {
		n += 2 + protohelpers.SizeOfVarint(uint64(m.X_FieldName14))
	}
	if m.Field_Name15 != 0 {
		n += 2 + protohelpers.SizeOfVarint(uint64(m.Field_Name15))
	}
	if m.Field__Name16 != 0 {
		n += 2 + protohelpers.SizeOfVarint(uint64(m.Field__Name16))
	}
	if m.FieldName17__ != 0 {
		n += 2 + protohelpers.SizeOfVarint(uint64(m.FieldName17__))
	}
	if m.FieldName18__ != 0 {
		n += 2 + protohelpers.SizeOfVarint(uint64(m.FieldName18__))
	}
	n += len(m.unknownFields)
	return n
}
func (m *TestAllTypesProto3_OneofUint32) SizeVT() (n int) {
	if m == nil {
		return 0
	}
	var l int
	_ = l
	n += 2 + protohelpers.SizeOfVarint(uint64(m.OneofUint32))
	return n
}
func (m *TestAllTypesProto3_OneofNestedMessage) SizeVT() (n int) {
	if m == nil {
		return 0
	}
	var l int
	_ = l
	if m.OneofNestedMessage != nil {
		l = m.OneofNestedMessage.SizeVT()
		n += 2 + l + protohelpers.SizeOfVarint(uint64(l))
	} else {
		n += 3
	}
	return n
}
func (m *TestAllTypesProto3_OneofString) SizeVT() (n int) {
	if m == nil {
		return 0
	}
	var l int
	_ = l
	l = len(m.OneofString)
	n += 2 + l + protohelpers.SizeOfVarint(uint64(l))
	return n
}
func (m *TestAllTypesProto3_OneofBytes) SizeVT() (n int) {
	if m == nil {
		return 0
	}
	var l int
	_ = l
	l = len(m.OneofBytes)
	n += 2 + l + protohelpers.SizeOfVarint(uint64(l))
	return n
}
func (m *TestAllTypesProto3_OneofBool) SizeVT() (n int) {
	if m == nil {
		return 0
	}
	var l int
	_ = l
	n += 3
	return n
}
func (m *TestAllTypesProto3_OneofUint64) SizeVT() (n int) {
	if m == nil {
		return 0
	}
	var l int
	_ = l
	n += 2 + protohelpers.SizeOfVarint(uint64(m.OneofUint64))
	return n
}
func (m *TestAllTypesProto3_OneofFloat) SizeVT() (n int) {
	if m == nil {
		return 0
	}
	var l int
	_ = l
	n += 6
	return n
}
func (m *TestAllTypesProto3_OneofDouble) SizeVT() (n int) {
	if m == nil {
		return 0
	}
	var l int
	_ = l
	n += 10
	return n
}
func (m *TestAllTypesProto3_OneofEnum) SizeVT() (n int) {
	if m == nil {
		return 0
	}
	var l int
	_ = l
	n += 2 + protohelpers.SizeOfVarint(uint64(m.OneofEnum))
	return n
}
func (m *TestAllTypesProto3_OneofNullValue) SizeVT() (n int) {
	if m == nil {
		return 0
	}
	var l int
	_ = l
	n += 2 + protohelpers.SizeOfVarint(uint64(m.OneofNullValue))
	return n
}
func (m *ForeignMessage) SizeVT() (n int) {
	if m == nil {
		return 0
	}
	var l int
	_ = l
	if m.C != 0 {
		n += 1 + protohelpers.SizeOfVarint(uint64(m.C))
	}
	n += len(m.unknownFields)
	return n
}
func (m *NullHypothesisProto3) SizeVT() (n int) {
	if m == nil {
		return 0
	}
	var l int
	_ = l
	n += len(m.unknownFields)
	return n
}
func (m *EnumOnlyProto3) SizeVT() (n int) {
	if m == nil {
		return 0
	}
	var l int
	_ = l
	n += len(m.unknownFields)
	return n
}
".
Definition s_conformance3 : list string := [s_conformance3_1; s_conformance3_2; s_conformance3_3].

(** /repo/types/known/anypb/any_vtproto.pb.go *)
Definition s_any_1 : string :=
"func (m *Any) SizeVT() (n int) {
	if m == nil {
		return 0
	}
	var l int
	_ = l
	l = len(m.TypeUrl)
	if l > 0 {
		n += 1 + l + protohelpers.SizeOfVarint(uint64(l))
	}
	l = len(m.Value)
	if l > 0 {
		n += 1 + l + protohelpers.SizeOfVarint(uint64(l))
	}
	return n
}
".
Definition s_any : list string := [s_any_1].

(** /repo/types/known/durationpb/duration_vtproto.pb.go *)
Definition s_duration_1 : string :=
"func (m *Duration) SizeVT() (n int) {
	if m == nil {
		return 0
	}
	var l int
	_ = l
	if m.Seconds != 0 {
		n += 1 + protohelpers.SizeOfVarint(uint64(m.Seconds))
	}
	if m.Nanos != 0 {
		n += 1 + protohelpers.SizeOfVarint(uint64(m.Nanos))
	}
	return n
}
".
Definition s_duration : list string := [s_duration_1].

(** /repo/types/known/emptypb/empty_vtproto.pb.go *)
Definition s_empty_1 : string :=
"func (m *Empty) SizeVT() (n int) {
	if m == nil {
		return 0
	}
	var l int
	_ = l
	return n
}
".
Definition s_empty : list string := [s_empty_1].

(** /repo/types/known/fieldmaskpb/field_mask_vtproto.pb.go *)
Definition s_field_mask_1 : string :=
"func (m *FieldMask) SizeVT() (n int) {
	if m == nil {
		return 0
	}
	var l int
	_ = l
	if len(m.Paths) > 0 {
		for _, s := range m.Paths {
			l = len(s)
			n += 1 + l + protohelpers.SizeOfVarint(uint64(l))
		}
	}
	return n
}
".
Definition s_field_mask : list string := [s_field_mask_1].

(** /repo/types/known/structpb/struct_vtproto.pb.go *)
Definition s_struct_1 : string :=
"func (m *Struct) SizeVT() (n int) {
	if m == nil {
		return 0
	}
	var l int
	_ = l
	if len(m.Fields) > 0 {
		for k, v := range m.Fields {
			_ = k
			_ = v
			l = 0
			if v != nil {
				l = (*Value)(v).SizeVT()
			}
			l += 1 + protohelpers.SizeOfVarint(uint64(l))
			mapEntrySize := 1 + len(k) + protohelpers.SizeOfVarint(uint64(len(k))) + l
			n += mapEntrySize + 1 + protohelpers.SizeOfVarint(uint64(mapEntrySize))
		}
	}
	return n
}
func (m *Value) SizeVT() (n int) {
	if m == nil {
		return 0
	}
	var l int
	_ = l
	switch c := m.Kind.(type) {
	case *structpb.Value_NullValue:
		n += (*Value_NullValue)(c).SizeVT()
	case *structpb.Value_NumberValue:
		n += (*Value_NumberValue)(c).SizeVT()
	case *structpb.Value_StringValue:
		n += (*Value_StringValue)(c).SizeVT()
	case *structpb.Value_BoolValue:
		n += (*Value_BoolValue)(c).SizeVT()
	case *structpb.Value_StructValue:
		n += (*Value_StructValue)(c).SizeVT()
	case *structpb.Value_ListValue:
		n += (*Value_ListValue)(c).SizeVT()
	}
	return n
}
func (m *Value_NullValue) SizeVT() (n int) {
	if m == nil {
		return 0
	}
	var l int
	_ = l
	n += 1 + protohelpers.SizeOfVarint(uint64(m.NullValue))
	return n
}
func (m *Value_NumberValue) SizeVT() (n int) {
	if m == nil {
		return 0
	}
	var l int
	_ = l
	n += 9
	return n
}
func (m *Value_StringValue) SizeVT() (n int) {
	if m == nil {
		return 0
	}
	var l int
	_ = l
	l = len(m.StringValue)
	n += 1 + l + protohelpers.SizeOfVarint(uint64(l))
	return n
}
func (m *Value_BoolValue) SizeVT() (n int) {
	if m == nil {
		return 0
	}
	var l int
	_ = l
	n += 2
	return n
}
func (m *Value_StructValue) SizeVT() (n int) {
	if m == nil {
		return 0
	}
	var l int
	_ = l
	if m.StructValue != nil {
		l = (*Struct)(m.StructValue).SizeVT()
		n += 1 + l + protohelpers.SizeOfVarint(uint64(l))
	} else {
		n += 2
	}
	return n
}
func (m *Value_ListValue) SizeVT() (n int) {
	if m == nil {
		return 0
	}
	var l int
	_ = l
	if m.ListValue != nil {
		l = (*ListValue)(m.ListValue).SizeVT()
		n += 1 + l + protohelpers.SizeOfVarint(uint64(l))
	} else {
		n += 2
	}
	return n
}
func (m *ListValue) SizeVT() (n int) {
	if m == nil {
		return 0
	}
	var l int
	_ = l
	if len(m.Values) > 0 {
		for _, e := range m.Values {
			l = (*Value)(e).SizeVT()
			n += 1 + l + protohelpers.SizeOfVarint(uint64(l))
		}
	}
	return n
}
".
Definition s_struct : list string := [s_struct_1].

(** /repo/types/known/timestamppb/timestamp_vtproto.pb.go *)
Definition s_timestamp_1 : string :=
"func (m *Timestamp) SizeVT() (n int) {
	if m == nil {
		return 0
	}
	var l int
	_ = l
	if m.Seconds != 0 {
		n += 1 + protohelpers.SizeOfVarint(uint64(m.Seconds))
	}
	if m.Nanos != 0 {
		n += 1 + protohelpers.SizeOfVarint(uint64(m.Nanos))
	}
	return n
}
".
Definition s_timestamp : list string := [s_timestamp_1].

(** /repo/types/known/wrapperspb/wrappers_vtproto.pb.go *)
Definition s_wrappers_1 : string :=
"func (m *DoubleValue) SizeVT() (n int) {
	if m == nil {
		return 0
	}
	var l int
	_ = l
	if m.Value != 0 {
		n += 9
	}
	return n
}
func (m *FloatValue) SizeVT() (n int) {
	if m == nil {
		return 0
	}
	var l int
	_ = l
	if m.Value != 0 {
		n += 5
	}
	return n
}
func (m *Int64Value) SizeVT() (n int) {
	if m == nil {
		return 0
	}
	var l int
	_ = l
	if m.Value != 0 {
		n += 1 + protohelpers.SizeOfVarint(uint64(m.Value))
	}
	return n
}
func (m *UInt64Value) SizeVT() (n int) {
	if m == nil {
		return 0
	}
	var l int
	_ = l
	if m.Value != 0 {
		n += 1 + protohelpers.SizeOfVarint(uint64(m.Value))
	}
	return n
}
func (m *Int32Value) SizeVT() (n int) {
	if m == nil {
		return 0
	}
	var l int
	_ = l
	if m.Value != 0 {
		n += 1 + protohelpers.SizeOfVarint(uint64(m.Value))
	}
	return n
}
func (m *UInt32Value) SizeVT() (n int) {
	if m == nil {
		return 0
	}
	var l int
	_ = l
	if m.Value != 0 {
		n += 1 + protohelpers.SizeOfVarint(uint64(m.Value))
	}
	return n
}
func (m *BoolValue) SizeVT() (n int) {
	if m == nil {
		return 0
	}
	var l int
	_ = l
	if m.Value {
		n += 2
	}
	return n
}
func (m *StringValue) SizeVT() (n int) {
	if m == nil {
		return 0
	}
	var l int
	_ = l
	l = len(m.Value)
	if l > 0 {
		n += 1 + l + protohelpers.SizeOfVarint(uint64(l))
	}
	return n
}
func (m *BytesValue) SizeVT() (n int) {
	if m == nil {
		return 0
	}
	var l int
	_ = l
	l = len(m.Value)
	if l > 0 {
		n += 1 + l + protohelpers.SizeOfVarint(uint64(l))
	}
	return n
}
".
Definition s_wrappers : list string := [s_wrappers_1].

