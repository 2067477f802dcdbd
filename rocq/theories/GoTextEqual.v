(** Written by tools/gotext.py.  The text of the EqualVT and EqualMessageVT methods in the *_vtproto.pb.go
    files cited, as committed in /repo. *)
From Coq Require Import String List.
Import ListNotations.
Open Scope string_scope.

(** /repo/testproto/ignore_unknown_fields/opt_vtproto.pb.go *)
Definition e_ignore_unknown_1 : string :=
"func (this *IgnoreUnknownFieldsExtension) EqualVT(that *IgnoreUnknownFieldsExtension) bool {
	if this == that {
		return true
	} else if this == nil || that == nil {
		return false
	}
	if this.Foo != that.Foo {
		return false
	}
	return true
}
func (this *IgnoreUnknownFieldsExtension) EqualMessageVT(thatMsg proto.Message) bool {
	that, ok := thatMsg.(*IgnoreUnknownFieldsExtension)
	if !ok {
		return false
	}
	return this.EqualVT(that)
}
".
Definition e_ignore_unknown : list string := [e_ignore_unknown_1].

(** /repo/testproto/pool/pool_vtproto.pb.go *)
Definition e_pool_1 : string :=
"func (this *OptionalMessage) EqualVT(that *OptionalMessage) bool {
	if this == that {
		return true
	} else if this == nil || that == nil {
		return false
	}
	return string(this.unknownFields) == string(that.unknownFields)
}
func (this *OptionalMessage) EqualMessageVT(thatMsg proto.Message) bool {
	that, ok := thatMsg.(*OptionalMessage)
	if !ok {
		return false
	}
	return this.EqualVT(that)
}
func (this *MemoryPoolExtension) EqualVT(that *MemoryPoolExtension) bool {
	if this == that {
		return true
	} else if this == nil || that == nil {
		return false
	}
	if this.Foo1 != that.Foo1 {
		return false
	}
	if this.Foo2 != that.Foo2 {
		return false
	}
	if !this.Foo3.EqualVT(that.Foo3) {
		return false
	}
	return string(this.unknownFields) == string(that.unknownFields)
}
func (this *MemoryPoolExtension) EqualMessageVT(thatMsg proto.Message) bool {
	that, ok := thatMsg.(*MemoryPoolExtension)
	if !ok {
		return false
	}
	return this.EqualVT(that)
}
".
Definition e_pool : list string := [e_pool_1].

(** /repo/testproto/pool/pool_with_oneof_vtproto.pb.go *)
Definition e_pool_oneof_1 : string :=
"func (this *OneofTest_Test1) EqualVT(that *OneofTest_Test1) bool {
	if this == that {
		return true
	} else if this == nil || that == nil {
		return false
	}
	if this.A != that.A {
		return false
	}
	return string(this.unknownFields) == string(that.unknownFields)
}
func (this *OneofTest_Test1) EqualMessageVT(thatMsg proto.Message) bool {
	that, ok := thatMsg.(*OneofTest_Test1)
	if !ok {
		return false
	}
	return this.EqualVT(that)
}
func (this *OneofTest_Test2) EqualVT(that *OneofTest_Test2) bool {
	if this == that {
		return true
	} else if this == nil || that == nil {
		return false
	}
	if len(this.B) != len(that.B) {
		return false
	}
	for i, vx := range this.B {
		vy := that.B[i]
		if vx != vy {
			return false
		}
	}
	return string(this.unknownFields) == string(that.unknownFields)
}
func (this *OneofTest_Test2) EqualMessageVT(thatMsg proto.Message) bool {
	that, ok := thatMsg.(*OneofTest_Test2)
	if !ok {
		return false
	}
	return this.EqualVT(that)
}
func (this *OneofTest_Test3_Element2) EqualVT(that *OneofTest_Test3_Element2) bool {
	if this == that {
		return true
	} else if this == nil || that == nil {
		return false
	}
	if this.D != that.D {
		return false
	}
	return string(this.unknownFields) == string(that.unknownFields)
}
func (this *OneofTest_Test3_Element2) EqualMessageVT(thatMsg proto.Message) bool {
	that, ok := thatMsg.(*OneofTest_Test3_Element2)
	if !ok {
		return false
	}
	return this.EqualVT(that)
}
func (this *OneofTest_Test3) EqualVT(that *OneofTest_Test3) bool {
	if this == that {
		return true
	} else if this == nil || that == nil {
		return false
	}
	if !this.C.EqualVT(that.C) {
		return false
	}
	return string(this.unknownFields) == string(that.unknownFields)
}
func (this *OneofTest_Test3) EqualMessageVT(thatMsg proto.Message) bool {
	that, ok := thatMsg.(*OneofTest_Test3)
	if !ok {
		return false
	}
	return this.EqualVT(that)
}
func (this *OneofTest) EqualVT(that *OneofTest) bool {
	if this == that {
		return true
	} else if this == nil || that == nil {
		return false
	}
	if this.Test == nil && that.Test != nil {
		return false
	} else if this.Test != nil {
		if that.Test == nil {
			return false
		}
		if !this.Test.(interface{ EqualVT(isOneofTest_Test) bool }).EqualVT(that.Test) {
			return false
		}
	}
	return string(this.unknownFields) == string(that.unknownFields)
}
func (this *OneofTest) EqualMessageVT(thatMsg proto.Message) bool {
	that, ok := thatMsg.(*OneofTest)
	if !ok {
		return false
	}
	return this.EqualVT(that)
}
func (this *OneofTest_Test1_) EqualVT(thatIface isOneofTest_Test) bool {
	that, ok := thatIface.(*OneofTest_Test1_)
	if !ok {
		return false
	}
	if this == that {
		return true
	}
	if this == nil && that != nil || this != nil && that == nil {
		return false
	}
	if p, q := this.Test1, that.Test1; p != q {
		if p == nil {
			p = &OneofTest_Test1{}
		}
		if q == nil {
			q = &OneofTest_Test1{}
		}
		if !p.EqualVT(q) {
			return false
		}
	}
	return true
}
func (this *OneofTest_Test2_) EqualVT(thatIface isOneofTest_Test) bool {
	that, ok := thatIface.(*OneofTest_Test2_)
	if !ok {
		return false
	}
	if this == that {
		return true
	}
	if this == nil && that != nil || this != nil && that == nil {
		return false
	}
	if p, q := this.Test2, that.Test2; p != q {
		if p == nil {
			p = &OneofTest_Test2{}
		}
		if q == nil {
			q = &OneofTest_Test2{}
		}
		if !p.EqualVT(q) {
			return false
		}
	}
	return true
}
func (this *OneofTest_Test3_) EqualVT(thatIface isOneofTest_Test) bool {
	that, ok := thatIface.(*OneofTest_Test3_)
	if !ok {
		return false
	}
	if this == that {
		return true
	}
	if this == nil && that != nil || this != nil && that == nil {
		return false
	}
	if p, q := this.Test3, that.Test3; p != q {
		if p == nil {
			p = &OneofTest_Test3{}
		}
		if q == nil {
			q = &OneofTest_Test3{}
		}
		if !p.EqualVT(q) {
			return false
		}
	}
	return true
}
func (this *OneofTest_Test4) EqualVT(thatIface isOneofTest_Test) bool {
	that, ok := thatIface.(*OneofTest_Test4)
	if !ok {
		return false
	}
	if this == that {
		return true
	}
	if this == nil && that != nil || this != nil && that == nil {
		return false
	}
	if string(this.Test4) != string(that.Test4) {
		return false
	}
	return true
}
".
Definition e_pool_oneof : list string := [e_pool_oneof_1].

(** /repo/testproto/pool/pool_with_slice_reuse_vtproto.pb.go *)
Definition e_pool_slice_1 : string :=
"func (this *Test1) EqualVT(that *Test1) bool {
	if this == that {
		return true
	} else if this == nil || that == nil {
		return false
	}
	if len(this.Sl) != len(that.Sl) {
		return false
	}
	for i, vx := range this.Sl {
		vy := that.Sl[i]
		if vx != vy {
			return false
		}
	}
	return string(this.unknownFields) == string(that.unknownFields)
}
func (this *Test1) EqualMessageVT(thatMsg proto.Message) bool {
	that, ok := thatMsg.(*Test1)
	if !ok {
		return false
	}
	return this.EqualVT(that)
}
func (this *Test2) EqualVT(that *Test2) bool {
	if this == that {
		return true
	} else if this == nil || that == nil {
		return false
	}
	if len(this.Sl) != len(that.Sl) {
		return false
	}
	for i, vx := range this.Sl {
		vy := that.Sl[i]
		if p, q := vx, vy; p != q {
			if p == nil {
				p = &Slice2{}
			}
			if q == nil {
				q = &Slice2{}
			}
			if !p.EqualVT(q) {
				return false
			}
		}
	}
	return string(this.unknownFields) == string(that.unknownFields)
}
func (this *Test2) EqualMessageVT(thatMsg proto.Message) bool {
	that, ok := thatMsg.(*Test2)
	if !ok {
		return false
	}
	return this.EqualVT(that)
}
func (this *Slice2) EqualVT(that *Slice2) bool {
	if this == that {
		return true
	} else if this == nil || that == nil {
		return false
	}
	if len(this.A) != len(that.A) {
		return false
	}
	for i, vx := range this.A {
		vy, ok := that.A[i]
		if !ok {
			return false
		}
		if vx != vy {
			return false
		}
	}
	if p, q := this.B, that.B; (p == nil && q != nil) || (p != nil && (q == nil || *p != *q)) {
		return false
	}
	if len(this.C) != len(that.C) {
		return false
	}
	for i, vx := range this.C {
		vy := that.C[i]
		if vx != vy {
			return false
		}
	}
	if !this.D.EqualVT(that.D) {
		return false
	}
	if this.E != that.E {
		return false
	}
	if this.F != that.F {
		return false
	}
	return string(this.unknownFields) == string(that.unknownFields)
}
func (this *Slice2) EqualMessageVT(thatMsg proto.Message) bool {
	that, ok := thatMsg.(*Slice2)
	if !ok {
		return false
	}
	return this.EqualVT(that)
}
func (this *Element2) EqualVT(that *Element2) bool {
	if this == that {
		return true
	} else if this == nil || that == nil {
		return false
	}
	if this.A != that.A {
		return false
	}
	return string(this.unknownFields) == string(that.unknownFields)
}
func (this *Element2) EqualMessageVT(thatMsg proto.Message) bool {
	that, ok := thatMsg.(*Element2)
	if !ok {
		return false
	}
	return this.EqualVT(that)
}
func (this *Test3) EqualVT(that *Test3) bool {
	if this == that {
		return true
	} else if this == nil || that == nil {
		return false
	}
	if len(this.Sl) != len(that.Sl) {
		return false
	}
	for i, vx := range this.Sl {
		vy := that.Sl[i]
		if string(vx) != string(vy) {
			return false
		}
	}
	return string(this.unknownFields) == string(that.unknownFields)
}
func (this *Test3) EqualMessageVT(thatMsg proto.Message) bool {
	that, ok := thatMsg.(*Test3)
	if !ok {
		return false
	}
	return this.EqualVT(that)
}
".
Definition e_pool_slice : list string := [e_pool_slice_1].

(** /repo/testproto/proto2/scalars_vtproto.pb.go *)
Definition e_proto2_1 : string :=
"func (this *DoubleMessage) EqualVT(that *DoubleMessage) bool {
	if this == that {
		return true
	} else if this == nil || that == nil {
		return false
	}
	if p, q := this.RequiredField, that.RequiredField; (p == nil && q != nil) || (p != nil && (q == nil || *p != *q)) {
		return false
	}
	if p, q := this.OptionalField, that.OptionalField; (p == nil && q != nil) || (p != nil && (q == nil || *p != *q)) {
		return false
	}
	if len(this.RepeatedField) != len(that.RepeatedField) {
		return false
	}
	for i, vx := range this.RepeatedField {
		vy := that.RepeatedField[i]
		if vx != vy {
			return false
		}
	}
	if len(this.PackedField) != len(that.PackedField) {
		return false
	}
	for i, vx := range this.PackedField {
		vy := that.PackedField[i]
		if vx != vy {
			return false
		}
	}
	return string(this.unknownFields) == string(that.unknownFields)
}
func (this *DoubleMessage) EqualMessageVT(thatMsg proto.Message) bool {
	that, ok := thatMsg.(*DoubleMessage)
	if !ok {
		return false
	}
	return this.EqualVT(that)
}
func (this *FloatMessage) EqualVT(that *FloatMessage) bool {
	if this == that {
		return true
	} else if this == nil || that == nil {
		return false
	}
	if p, q := this.RequiredField, that.RequiredField; (p == nil && q != nil) || (p != nil && (q == nil || *p != *q)) {
		return false
	}
	if p, q := this.OptionalField, that.OptionalField; (p == nil && q != nil) || (p != nil && (q == nil || *p != *q)) {
		return false
	}
	if len(this.RepeatedField) != len(that.RepeatedField) {
		return false
	}
	for i, vx := range this.RepeatedField {
		vy := that.RepeatedField[i]
		if vx != vy {
			return false
		}
	}
	if len(this.PackedField) != len(that.PackedField) {
		return false
	}
	for i, vx := range this.PackedField {
		vy := that.PackedField[i]
		if vx != vy {
			return false
		}
	}
	return string(this.unknownFields) == string(that.unknownFields)
}
func (this *FloatMessage) EqualMessageVT(thatMsg proto.Message) bool {
	that, ok := thatMsg.(*FloatMessage)
	if !ok {
		return false
	}
	return this.EqualVT(that)
}
func (this *Int32Message) EqualVT(that *Int32Message) bool {
	if this == that {
		return true
	} else if this == nil || that == nil {
		return false
	}
	if p, q := this.RequiredField, that.RequiredField; (p == nil && q != nil) || (p != nil && (q == nil || *p != *q)) {
		return false
	}
	if p, q := this.OptionalField, that.OptionalField; (p == nil && q != nil) || (p != nil && (q == nil || *p != *q)) {
		return false
	}
	if len(this.RepeatedField) != len(that.RepeatedField) {
		return false
	}
	for i, vx := range this.RepeatedField {
		vy := that.RepeatedField[i]
		if vx != vy {
			return false
		}
	}
	if len(this.PackedField) != len(that.PackedField) {
		return false
	}
	for i, vx := range this.PackedField {
		vy := that.PackedField[i]
		if vx != vy {
			return false
		}
	}
	return string(this.unknownFields) == string(that.unknownFields)
}
func (this *Int32Message) EqualMessageVT(thatMsg proto.Message) bool {
	that, ok := thatMsg.(*Int32Message)
	if !ok {
		return false
	}
	return this.EqualVT(that)
}
func (this *Int64Message) EqualVT(that *Int64Message) bool {
	if this == that {
		return true
	} else if this == nil || that == nil {
		return false
	}
	if p, q := this.RequiredField, that.RequiredField; (p == nil && q != nil) || (p != nil && (q == nil || *p != *q)) {
		return false
	}
	if p, q := this.OptionalField, that.OptionalField; (p == nil && q != nil) || (p != nil && (q == nil || *p != *q)) {
		return false
	}
	if len(this.RepeatedField) != len(that.RepeatedField) {
		return false
	}
	for i, vx := range this.RepeatedField {
		vy := that.RepeatedField[i]
		if vx != vy {
			return false
		}
	}
	if len(this.PackedField) != len(that.PackedField) {
		return false
	}
	for i, vx := range this.PackedField {
		vy := that.PackedField[i]
		if vx != vy {
			return false
		}
	}
	return string(this.unknownFields) == string(that.unknownFields)
}
func (this *Int64Message) EqualMessageVT(thatMsg proto.Message) bool {
	that, ok := thatMsg.(*Int64Message)
	if !ok {
		return false
	}
	return this.EqualVT(that)
}
func (this *Uint32Message) EqualVT(that *Uint32Message) bool {
	if this == that {
		return true
	} else if this == nil || that == nil {
		return false
	}
	if p, q := this.RequiredField, that.RequiredField; (p == nil && q != nil) || (p != nil && (q == nil || *p != *q)) {
		return false
	}
	if p, q := this.OptionalField, that.OptionalField; (p == nil && q != nil) || (p != nil && (q == nil || *p != *q)) {
		return false
	}
	if len(this.RepeatedField) != len(that.RepeatedField) {
		return false
	}
	for i, vx := range this.RepeatedField {
		vy := that.RepeatedField[i]
		if vx != vy {
			return false
		}
	}
	if len(this.PackedField) != len(that.PackedField) {
		return false
	}
	for i, vx := range this.PackedField {
		vy := that.PackedField[i]
		if vx != vy {
			return false
		}
	}
	return string(this.unknownFields) == string(that.unknownFields)
}
func (this *Uint32Message) EqualMessageVT(thatMsg proto.Message) bool {
	that, ok := thatMsg.(*Uint32Message)
	if !ok {
		return false
	}
	return this.EqualVT(that)
}
func (this *Uint64Message) EqualVT(that *Uint64Message) bool {
	if this == that {
		return true
	} else if this == nil || that == nil {
		return false
	}
	if p, q := this.RequiredField, that.RequiredField; (p == nil && q != nil) || (p != nil && (q == nil || *p != *q)) {
		return false
	}
	if p, q := this.OptionalField, that.OptionalField; (p == nil && q != nil) || (p != nil && (q == nil || *p != *q)) {
		return false
	}
	if len(this.RepeatedField) != len(that.RepeatedField) {
		return false
	}
	for i, vx := range this.RepeatedField {
		vy := that.RepeatedField[i]
		if vx != vy {
			return false
		}
	}
	if len(this.PackedField) != len(that.PackedField) {
		return false
	}
	for i, vx := range this.PackedField {
		vy := that.PackedField[i]
		if vx != vy {
			return false
		}
	}
	return string(this.unknownFields) == string(that.unknownFields)
}
func (this *Uint64Message) EqualMessageVT(thatMsg proto.Message) bool {
	that, ok := thatMsg.(*Uint64Message)
	if !ok {
		return false
	}
	return this.EqualVT(that)
}
func (this *Sint32Message) EqualVT(that *Sint32Message) bool {
	if this == that {
		return true
	} else if this == nil || that == nil {
		return false
	}
	if p, q := this.RequiredField, that.RequiredField; (p == nil && q != nil) || (p != nil && (q == nil || *p != *q)) {
		return false
	}
	if p, q := this.OptionalField, that.OptionalField; (p == nil && q != nil) || (p != nil && (q == nil || *p != *q)) {
		return false
	}
	if len(this.RepeatedField) != len(that.RepeatedField) {
		return false
	}
	for i, vx := range this.RepeatedField {
		vy := that.RepeatedField[i]
		if vx != vy {
			return false
		}
	}
	if len(this.PackedField) != len(that.PackedField) {
		return false
	}
	for i, vx := range this.PackedField {
		vy := that.PackedField[i]
		if vx != vy {
			return false
		}
	}
	return string(this.unknownFields) == string(that.unknownFields)
}
func (this *Sint32Message) EqualMessageVT(thatMsg proto.Message) bool {
	that, ok := thatMsg.(*Sint32Message)
	if !ok {
		return false
	}
	return this.EqualVT(that)
}
func (this *Sint64Message) EqualVT(that *Sint64Message) bool {
	if this == that {
		return true
	} else if this == nil || that == nil {
		return false
	}
	if p, q := this.RequiredField, that.RequiredField; (p == nil && q != nil) || (p != nil && (q == nil || *p != *q)) {
		return false
	}
	if p, q := this.OptionalField, that.OptionalField; (p == nil && q != nil) || (p != nil && (q == nil || *p != *q)) {
		return false
	}
	if len(this.RepeatedField) != len(that.RepeatedField) {
		return false
	}
	for i, vx := range this.RepeatedField {
		vy := that.RepeatedField[i]
		if vx != vy {
			return false
		}
	}
	if len(this.PackedField) != len(that.PackedField) {
		return false
	}
	for i, vx := range this.PackedField {
		vy := that.PackedField[i]
		if vx != vy {
			return false
		}
	}
	return string(this.unknownFields) == string(that.unknownFields)
}
".
Definition e_proto2_2 : string :=
"func (this *Sint64Message) EqualMessageVT(thatMsg proto.Message) bool {
	that, ok := thatMsg.(*Sint64Message)
	if !ok {
		return false
	}
	return this.EqualVT(that)
}
func (this *Fixed32Message) EqualVT(that *Fixed32Message) bool {
	if this == that {
		return true
	} else if this == nil || that == nil {
		return false
	}
	if p, q := this.RequiredField, that.RequiredField; (p == nil && q != nil) || (p != nil && (q == nil || *p != *q)) {
		return false
	}
	if p, q := this.OptionalField, that.OptionalField; (p == nil && q != nil) || (p != nil && (q == nil || *p != *q)) {
		return false
	}
	if len(this.RepeatedField) != len(that.RepeatedField) {
		return false
	}
	for i, vx := range this.RepeatedField {
		vy := that.RepeatedField[i]
		if vx != vy {
			return false
		}
	}
	if len(this.PackedField) != len(that.PackedField) {
		return false
	}
	for i, vx := range this.PackedField {
		vy := that.PackedField[i]
		if vx != vy {
			return false
		}
	}
	return string(this.unknownFields) == string(that.unknownFields)
}
func (this *Fixed32Message) EqualMessageVT(thatMsg proto.Message) bool {
	that, ok := thatMsg.(*Fixed32Message)
	if !ok {
		return false
	}
	return this.EqualVT(that)
}
func (this *Fixed64Message) EqualVT(that *Fixed64Message) bool {
	if this == that {
		return true
	} else if this == nil || that == nil {
		return false
	}
	if p, q := this.RequiredField, that.RequiredField; (p == nil && q != nil) || (p != nil && (q == nil || *p != *q)) {
		return false
	}
	if p, q := this.OptionalField, that.OptionalField; (p == nil && q != nil) || (p != nil && (q == nil || *p != *q)) {
		return false
	}
	if len(this.RepeatedField) != len(that.RepeatedField) {
		return false
	}
	for i, vx := range this.RepeatedField {
		vy := that.RepeatedField[i]
		if vx != vy {
			return false
		}
	}
	if len(this.PackedField) != len(that.PackedField) {
		return false
	}
	for i, vx := range this.PackedField {
		vy := that.PackedField[i]
		if vx != vy {
			return false
		}
	}
	return string(this.unknownFields) == string(that.unknownFields)
}
func (this *Fixed64Message) EqualMessageVT(thatMsg proto.Message) bool {
	that, ok := thatMsg.(*Fixed64Message)
	if !ok {
		return false
	}
	return this.EqualVT(that)
}
func (this *Sfixed32Message) EqualVT(that *Sfixed32Message) bool {
	if this == that {
		return true
	} else if this == nil || that == nil {
		return false
	}
	if p, q := this.RequiredField, that.RequiredField; (p == nil && q != nil) || (p != nil && (q == nil || *p != *q)) {
		return false
	}
	if p, q := this.OptionalField, that.OptionalField; (p == nil && q != nil) || (p != nil && (q == nil || *p != *q)) {
		return false
	}
	if len(this.RepeatedField) != len(that.RepeatedField) {
		return false
	}
	for i, vx := range this.RepeatedField {
		vy := that.RepeatedField[i]
		if vx != vy {
			return false
		}
	}
	if len(this.PackedField) != len(that.PackedField) {
		return false
	}
	for i, vx := range this.PackedField {
		vy := that.PackedField[i]
		if vx != vy {
			return false
		}
	}
	return string(this.unknownFields) == string(that.unknownFields)
}
func (this *Sfixed32Message) EqualMessageVT(thatMsg proto.Message) bool {
	that, ok := thatMsg.(*Sfixed32Message)
	if !ok {
		return false
	}
	return this.EqualVT(that)
}
func (this *Sfixed64Message) EqualVT(that *Sfixed64Message) bool {
	if this == that {
		return true
	} else if this == nil || that == nil {
		return false
	}
	if p, q := this.RequiredField, that.RequiredField; (p == nil && q != nil) || (p != nil && (q == nil || *p != *q)) {
		return false
	}
	if p, q := this.OptionalField, that.OptionalField; (p == nil && q != nil) || (p != nil && (q == nil || *p != *q)) {
		return false
	}
	if len(this.RepeatedField) != len(that.RepeatedField) {
		return false
	}
	for i, vx := range this.RepeatedField {
		vy := that.RepeatedField[i]
		if vx != vy {
			return false
		}
	}
	if len(this.PackedField) != len(that.PackedField) {
		return false
	}
	for i, vx := range this.PackedField {
		vy := that.PackedField[i]
		if vx != vy {
			return false
		}
	}
	return string(this.unknownFields) == string(that.unknownFields)
}
func (this *Sfixed64Message) EqualMessageVT(thatMsg proto.Message) bool {
	that, ok := thatMsg.(*Sfixed64Message)
	if !ok {
		return false
	}
	return this.EqualVT(that)
}
func (this *BoolMessage) EqualVT(that *BoolMessage) bool {
	if this == that {
		return true
	} else if this == nil || that == nil {
		return false
	}
	if p, q := this.RequiredField, that.RequiredField; (p == nil && q != nil) || (p != nil && (q == nil || *p != *q)) {
		return false
	}
	if p, q := this.OptionalField, that.OptionalField; (p == nil && q != nil) || (p != nil && (q == nil || *p != *q)) {
		return false
	}
	if len(this.RepeatedField) != len(that.RepeatedField) {
		return false
	}
	for i, vx := range this.RepeatedField {
		vy := that.RepeatedField[i]
		if vx != vy {
			return false
		}
	}
	if len(this.PackedField) != len(that.PackedField) {
		return false
	}
	for i, vx := range this.PackedField {
		vy := that.PackedField[i]
		if vx != vy {
			return false
		}
	}
	return string(this.unknownFields) == string(that.unknownFields)
}
func (this *BoolMessage) EqualMessageVT(thatMsg proto.Message) bool {
	that, ok := thatMsg.(*BoolMessage)
	if !ok {
		return false
	}
	return this.EqualVT(that)
}
func (this *StringMessage) EqualVT(that *StringMessage) bool {
	if this == that {
		return true
	} else if this == nil || that == nil {
		return false
	}
	if p, q := this.RequiredField, that.RequiredField; (p == nil && q != nil) || (p != nil && (q == nil || *p != *q)) {
		return false
	}
	if p, q := this.OptionalField, that.OptionalField; (p == nil && q != nil) || (p != nil && (q == nil || *p != *q)) {
		return false
	}
	if len(this.RepeatedField) != len(that.RepeatedField) {
		return false
	}
	for i, vx := range this.RepeatedField {
		vy := that.RepeatedField[i]
		if vx != vy {
			return false
		}
	}
	return string(this.unknownFields) == string(that.unknownFields)
}
func (this *StringMessage) EqualMessageVT(thatMsg proto.Message) bool {
	that, ok := thatMsg.(*StringMessage)
	if !ok {
		return false
	}
	return this.EqualVT(that)
}
func (this *BytesMessage) EqualVT(that *BytesMessage) bool {
	if this == that {
		return true
	} else if this == nil || that == nil {
		return false
	}
	if p, q := this.RequiredField, that.RequiredField; (p == nil && q != nil) || (p != nil && q == nil) || string(p) != string(q) {
		return false
	}
	if p, q := this.OptionalField, that.OptionalField; (p == nil && q != nil) || (p != nil && q == nil) || string(p) != string(q) {
		return false
	}
	if len(this.RepeatedField) != len(that.RepeatedField) {
		return false
	}
	for i, vx := range this.RepeatedField {
		vy := that.RepeatedField[i]
		if string(vx) != string(vy) {
			return false
		}
	}
	return string(this.unknownFields) == string(that.unknownFields)
}
func (this *BytesMessage) EqualMessageVT(thatMsg proto.Message) bool {
	that, ok := thatMsg.(*BytesMessage)
	if !ok {
		return false
	}
	return this.EqualVT(that)
}
func (this *EnumMessage) EqualVT(that *EnumMessage) bool {
	if this == that {
		return true
	} else if this == nil || that == nil {
		return false
	}
	if p, q := this.RequiredField, that.RequiredField; (p == nil && q != nil) || (p != nil && (q == nil || *p != *q)) {
		return false
	}
	if p, q := this.OptionalField, that.OptionalField; (p == nil && q != nil) || (p != nil && (q == nil || *p != *q)) {
		return false
	}
	if len(this.RepeatedField) != len(that.RepeatedField) {
		return false
	}
	for i, vx := range this.RepeatedField {
		vy := that.RepeatedField[i]
		if vx != vy {
			return false
		}
	}
	if len(this.PackedField) != len(that.PackedField) {
		return false
	}
	for i, vx := range this.PackedField {
		vy := that.PackedField[i]
		if vx != vy {
			return false
		}
	}
	return string(this.unknownFields) == string(that.unknownFields)
}
func (this *EnumMessage) EqualMessageVT(thatMsg proto.Message) bool {
	that, ok := thatMsg.(*EnumMessage)
	if !ok {
		return false
	}
".
Definition e_proto2_3 : string :=
"	return this.EqualVT(that)
}
".
Definition e_proto2 : list string := [e_proto2_1; e_proto2_2; e_proto2_3].

(** /repo/testproto/proto3opt/opt_vtproto.pb.go *)
Definition e_proto3opt_1 : string :=
"func (this *OptionalFieldInProto3) EqualVT(that *OptionalFieldInProto3) bool {
	if this == that {
		return true
	} else if this == nil || that == nil {
		return false
	}
	if p, q := this.OptionalInt32, that.OptionalInt32; (p == nil && q != nil) || (p != nil && (q == nil || *p != *q)) {
		return false
	}
	if p, q := this.OptionalInt64, that.OptionalInt64; (p == nil && q != nil) || (p != nil && (q == nil || *p != *q)) {
		return false
	}
	if p, q := this.OptionalUint32, that.OptionalUint32; (p == nil && q != nil) || (p != nil && (q == nil || *p != *q)) {
		return false
	}
	if p, q := this.OptionalUint64, that.OptionalUint64; (p == nil && q != nil) || (p != nil && (q == nil || *p != *q)) {
		return false
	}
	if p, q := this.OptionalSint32, that.OptionalSint32; (p == nil && q != nil) || (p != nil && (q == nil || *p != *q)) {
		return false
	}
	if p, q := this.OptionalSint64, that.OptionalSint64; (p == nil && q != nil) || (p != nil && (q == nil || *p != *q)) {
		return false
	}
	if p, q := this.OptionalFixed32, that.OptionalFixed32; (p == nil && q != nil) || (p != nil && (q == nil || *p != *q)) {
		return false
	}
	if p, q := this.OptionalFixed64, that.OptionalFixed64; (p == nil && q != nil) || (p != nil && (q == nil || *p != *q)) {
		return false
	}
	if p, q := this.OptionalSfixed32, that.OptionalSfixed32; (p == nil && q != nil) || (p != nil && (q == nil || *p != *q)) {
		return false
	}
	if p, q := this.OptionalSfixed64, that.OptionalSfixed64; (p == nil && q != nil) || (p != nil && (q == nil || *p != *q)) {
		return false
	}
	if p, q := this.OptionalFloat, that.OptionalFloat; (p == nil && q != nil) || (p != nil && (q == nil || *p != *q)) {
		return false
	}
	if p, q := this.OptionalDouble, that.OptionalDouble; (p == nil && q != nil) || (p != nil && (q == nil || *p != *q)) {
		return false
	}
	if p, q := this.OptionalBool, that.OptionalBool; (p == nil && q != nil) || (p != nil && (q == nil || *p != *q)) {
		return false
	}
	if p, q := this.OptionalString, that.OptionalString; (p == nil && q != nil) || (p != nil && (q == nil || *p != *q)) {
		return false
	}
	if p, q := this.OptionalBytes, that.OptionalBytes; (p == nil && q != nil) || (p != nil && q == nil) || string(p) != string(q) {
		return false
	}
	if p, q := this.OptionalEnum, that.OptionalEnum; (p == nil && q != nil) || (p != nil && (q == nil || *p != *q)) {
		return false
	}
	return string(this.unknownFields) == string(that.unknownFields)
}
func (this *OptionalFieldInProto3) EqualMessageVT(thatMsg proto.Message) bool {
	that, ok := thatMsg.(*OptionalFieldInProto3)
	if !ok {
		return false
	}
	return this.EqualVT(that)
}
".
Definition e_proto3opt : list string := [e_proto3opt_1].

(** /repo/testproto/unique/unique_vtproto.pb.go *)
Definition e_unique_1 : string :=
"func (this *UniqueFieldExtension) EqualVT(that *UniqueFieldExtension) bool {
	if this == that {
		return true
	} else if this == nil || that == nil {
		return false
	}
	if this.Foo != that.Foo {
		return false
	}
	if len(this.Bar) != len(that.Bar) {
		return false
	}
	for i, vx := range this.Bar {
		vy, ok := that.Bar[i]
		if !ok {
			return false
		}
		if vx != vy {
			return false
		}
	}
	if len(this.Baz) != len(that.Baz) {
		return false
	}
	for i, vx := range this.Baz {
		vy, ok := that.Baz[i]
		if !ok {
			return false
		}
		if vx != vy {
			return false
		}
	}
	return string(this.unknownFields) == string(that.unknownFields)
}
func (this *UniqueFieldExtension) EqualMessageVT(thatMsg proto.Message) bool {
	that, ok := thatMsg.(*UniqueFieldExtension)
	if !ok {
		return false
	}
	return this.EqualVT(that)
}
".
Definition e_unique : list string := [e_unique_1].

(** /repo/testproto/unsafe/unsafe_vtproto.pb.go *)
Definition e_unsafe_1 : string :=
"func (this *UnsafeTest_Sub1) EqualVT(that *UnsafeTest_Sub1) bool {
	if this == that {
		return true
	} else if this == nil || that == nil {
		return false
	}
	if this.S != that.S {
		return false
	}
	if string(this.B) != string(that.B) {
		return false
	}
	return string(this.unknownFields) == string(that.unknownFields)
}
func (this *UnsafeTest_Sub1) EqualMessageVT(thatMsg proto.Message) bool {
	that, ok := thatMsg.(*UnsafeTest_Sub1)
	if !ok {
		return false
	}
	return this.EqualVT(that)
}
func (this *UnsafeTest_Sub2) EqualVT(that *UnsafeTest_Sub2) bool {
	if this == that {
		return true
	} else if this == nil || that == nil {
		return false
	}
	if len(this.S) != len(that.S) {
		return false
	}
	for i, vx := range this.S {
		vy := that.S[i]
		if vx != vy {
			return false
		}
	}
	if len(this.B) != len(that.B) {
		return false
	}
	for i, vx := range this.B {
		vy := that.B[i]
		if string(vx) != string(vy) {
			return false
		}
	}
	return string(this.unknownFields) == string(that.unknownFields)
}
func (this *UnsafeTest_Sub2) EqualMessageVT(thatMsg proto.Message) bool {
	that, ok := thatMsg.(*UnsafeTest_Sub2)
	if !ok {
		return false
	}
	return this.EqualVT(that)
}
func (this *UnsafeTest_Sub3) EqualVT(that *UnsafeTest_Sub3) bool {
	if this == that {
		return true
	} else if this == nil || that == nil {
		return false
	}
	if len(this.Foo) != len(that.Foo) {
		return false
	}
	for i, vx := range this.Foo {
		vy, ok := that.Foo[i]
		if !ok {
			return false
		}
		if string(vx) != string(vy) {
			return false
		}
	}
	return string(this.unknownFields) == string(that.unknownFields)
}
func (this *UnsafeTest_Sub3) EqualMessageVT(thatMsg proto.Message) bool {
	that, ok := thatMsg.(*UnsafeTest_Sub3)
	if !ok {
		return false
	}
	return this.EqualVT(that)
}
func (this *UnsafeTest_Sub4) EqualVT(that *UnsafeTest_Sub4) bool {
	if this == that {
		return true
	} else if this == nil || that == nil {
		return false
	}
	if this.Foo == nil && that.Foo != nil {
		return false
	} else if this.Foo != nil {
		if that.Foo == nil {
			return false
		}
		if !this.Foo.(interface {
			EqualVT(isUnsafeTest_Sub4_Foo) bool
		}).EqualVT(that.Foo) {
			return false
		}
	}
	return string(this.unknownFields) == string(that.unknownFields)
}
func (this *UnsafeTest_Sub4) EqualMessageVT(thatMsg proto.Message) bool {
	that, ok := thatMsg.(*UnsafeTest_Sub4)
	if !ok {
		return false
	}
	return this.EqualVT(that)
}
func (this *UnsafeTest_Sub4_S) EqualVT(thatIface isUnsafeTest_Sub4_Foo) bool {
	that, ok := thatIface.(*UnsafeTest_Sub4_S)
	if !ok {
		return false
	}
	if this == that {
		return true
	}
	if this == nil && that != nil || this != nil && that == nil {
		return false
	}
	if this.S != that.S {
		return false
	}
	return true
}
func (this *UnsafeTest_Sub4_B) EqualVT(thatIface isUnsafeTest_Sub4_Foo) bool {
	that, ok := thatIface.(*UnsafeTest_Sub4_B)
	if !ok {
		return false
	}
	if this == that {
		return true
	}
	if this == nil && that != nil || this != nil && that == nil {
		return false
	}
	if string(this.B) != string(that.B) {
		return false
	}
	return true
}
func (this *UnsafeTest_Sub5) EqualVT(that *UnsafeTest_Sub5) bool {
	if this == that {
		return true
	} else if this == nil || that == nil {
		return false
	}
	if len(this.Foo) != len(that.Foo) {
		return false
	}
	for i, vx := range this.Foo {
		vy, ok := that.Foo[i]
		if !ok {
			return false
		}
		if vx != vy {
			return false
		}
	}
	return string(this.unknownFields) == string(that.unknownFields)
}
func (this *UnsafeTest_Sub5) EqualMessageVT(thatMsg proto.Message) bool {
	that, ok := thatMsg.(*UnsafeTest_Sub5)
	if !ok {
		return false
	}
	return this.EqualVT(that)
}
func (this *UnsafeTest) EqualVT(that *UnsafeTest) bool {
	if this == that {
		return true
	} else if this == nil || that == nil {
		return false
	}
	if this.Sub == nil && that.Sub != nil {
		return false
	} else if this.Sub != nil {
		if that.Sub == nil {
			return false
		}
		if !this.Sub.(interface{ EqualVT(isUnsafeTest_Sub) bool }).EqualVT(that.Sub) {
			return false
		}
	}
	return string(this.unknownFields) == string(that.unknownFields)
}
func (this *UnsafeTest) EqualMessageVT(thatMsg proto.Message) bool {
	that, ok := thatMsg.(*UnsafeTest)
	if !ok {
		return false
	}
	return this.EqualVT(that)
}
func (this *UnsafeTest_Sub1_) EqualVT(thatIface isUnsafeTest_Sub) bool {
	that, ok := thatIface.(*UnsafeTest_Sub1_)
	if !ok {
		return false
	}
	if this == that {
		return true
	}
	if this == nil && that != nil || this != nil && that == nil {
		return false
	}
	if p, q := this.Sub1, that.Sub1; p != q {
		if p == nil {
			p = &UnsafeTest_Sub1{}
		}
		if q == nil {
			q = &UnsafeTest_Sub1{}
		}
		if !p.EqualVT(q) {
			return false
		}
	}
	return true
}
func (this *UnsafeTest_Sub2_) EqualVT(thatIface isUnsafeTest_Sub) bool {
	that, ok := thatIface.(*UnsafeTest_Sub2_)
	if !ok {
		return false
	}
	if this == that {
		return true
	}
	if this == nil && that != nil || this != nil && that == nil {
		return false
	}
	if p, q := this.Sub2, that.Sub2; p != q {
		if p == nil {
			p = &UnsafeTest_Sub2{}
		}
		if q == nil {
			q = &UnsafeTest_Sub2{}
		}
		if !p.EqualVT(q) {
			return false
		}
	}
	return true
}
func (this *UnsafeTest_Sub3_) EqualVT(thatIface isUnsafeTest_Sub) bool {
	that, ok := thatIface.(*UnsafeTest_Sub3_)
	if !ok {
		return false
	}
	if this == that {
		return true
	}
	if this == nil && that != nil || this != nil && that == nil {
		return false
	}
	if p, q := this.Sub3, that.Sub3; p != q {
		if p == nil {
			p = &UnsafeTest_Sub3{}
		}
		if q == nil {
			q = &UnsafeTest_Sub3{}
		}
		if !p.EqualVT(q) {
			return false
		}
	}
	return true
}
func (this *UnsafeTest_Sub4_) EqualVT(thatIface isUnsafeTest_Sub) bool {
	that, ok := thatIface.(*UnsafeTest_Sub4_)
	if !ok {
		return false
	}
	if this == that {
		return true
	}
	if this == nil && that != nil || this != nil && that == nil {
		return false
	}
	if p, q := this.Sub4, that.Sub4; p != q {
		if p == nil {
			p = &UnsafeTest_Sub4{}
		}
		if q == nil {
			q = &UnsafeTest_Sub4{}
		}
		if !p.EqualVT(q) {
			return false
		}
	}
	return true
}
func (this *UnsafeTest_Sub5_) EqualVT(thatIface isUnsafeTest_Sub) bool {
	that, ok := thatIface.(*UnsafeTest_Sub5_)
	if !ok {
		return false
	}
	if this == that {
		return true
	}
	if this == nil && that != nil || this != nil && that == nil {
		return false
	}
	if p, q := this.Sub5, that.Sub5; p != q {
		if p == nil {
			p = &UnsafeTest_Sub5{}
		}
		if q == nil {
			q = &UnsafeTest_Sub5{}
		}
		if !p.EqualVT(q) {
			return false
		}
	}
	return true
}
".
Definition e_unsafe : list string := [e_unsafe_1].

(** /repo/testproto/wkt/wkt_vtproto.pb.go *)
Definition e_wkt_1 : string :=
"func (this *MessageWithWKT) EqualVT(that *MessageWithWKT) bool {
	if this == that {
		return true
	} else if this == nil || that == nil {
		return false
	}
	if !(*anypb1.Any)(this.Any).EqualVT((*anypb1.Any)(that.Any)) {
		return false
	}
	if !(*durationpb1.Duration)(this.Duration).EqualVT((*durationpb1.Duration)(that.Duration)) {
		return false
	}
	if !(*emptypb1.Empty)(this.Empty).EqualVT((*emptypb1.Empty)(that.Empty)) {
		return false
	}
	if !(*fieldmaskpb1.FieldMask)(this.FieldMask).EqualVT((*fieldmaskpb1.FieldMask)(that.FieldMask)) {
		return false
	}
	if !(*timestamppb1.Timestamp)(this.Timestamp).EqualVT((*timestamppb1.Timestamp)(that.Timestamp)) {
		return false
	}
	if !(*wrapperspb1.DoubleValue)(this.DoubleValue).EqualVT((*wrapperspb1.DoubleValue)(that.DoubleValue)) {
		return false
	}
	if !(*wrapperspb1.FloatValue)(this.FloatValue).EqualVT((*wrapperspb1.FloatValue)(that.FloatValue)) {
		return false
	}
	if !(*wrapperspb1.Int64Value)(this.Int64Value).EqualVT((*wrapperspb1.Int64Value)(that.Int64Value)) {
		return false
	}
	if !(*wrapperspb1.UInt64Value)(this.Uint64Value).EqualVT((*wrapperspb1.UInt64Value)(that.Uint64Value)) {
		return false
	}
	if !(*wrapperspb1.Int32Value)(this.Int32Value).EqualVT((*wrapperspb1.Int32Value)(that.Int32Value)) {
		return false
	}
	if !(*wrapperspb1.UInt32Value)(this.Uint32Value).EqualVT((*wrapperspb1.UInt32Value)(that.Uint32Value)) {
		return false
	}
	if !(*wrapperspb1.BoolValue)(this.BoolValue).EqualVT((*wrapperspb1.BoolValue)(that.BoolValue)) {
		return false
	}
	if !(*wrapperspb1.StringValue)(this.StringValue).EqualVT((*wrapperspb1.StringValue)(that.StringValue)) {
		return false
	}
	if !(*wrapperspb1.BytesValue)(this.BytesValue).EqualVT((*wrapperspb1.BytesValue)(that.BytesValue)) {
		return false
	}
	if !(*structpb1.Struct)(this.StructValue).EqualVT((*structpb1.Struct)(that.StructValue)) {
		return false
	}
	if !(*structpb1.Value)(this.ValueValue).EqualVT((*structpb1.Value)(that.ValueValue)) {
		return false
	}
	if !(*structpb1.ListValue)(this.ListvalueValue).EqualVT((*structpb1.ListValue)(that.ListvalueValue)) {
		return false
	}
	if this.NullValue != that.NullValue {
		return false
	}
	return string(this.unknownFields) == string(that.unknownFields)
}
func (this *MessageWithWKT) EqualMessageVT(thatMsg proto.Message) bool {
	that, ok := thatMsg.(*MessageWithWKT)
	if !ok {
		return false
	}
	return this.EqualVT(that)
}
".
Definition e_wkt : list string := [e_wkt_1].

(** /repo/testproto/grpc/grpc_vtproto.pb.go *)
Definition e_grpc_1 : string :=
"func (this *LocalTestMessageRequest) EqualVT(that *LocalTestMessageRequest) bool {
	if this == that {
		return true
	} else if this == nil || that == nil {
		return false
	}
	return string(this.unknownFields) == string(that.unknownFields)
}
func (this *LocalTestMessageRequest) EqualMessageVT(thatMsg proto.Message) bool {
	that, ok := thatMsg.(*LocalTestMessageRequest)
	if !ok {
		return false
	}
	return this.EqualVT(that)
}
func (this *LocalTestMessageResponse) EqualVT(that *LocalTestMessageResponse) bool {
	if this == that {
		return true
	} else if this == nil || that == nil {
		return false
	}
	return string(this.unknownFields) == string(that.unknownFields)
}
func (this *LocalTestMessageResponse) EqualMessageVT(thatMsg proto.Message) bool {
	that, ok := thatMsg.(*LocalTestMessageResponse)
	if !ok {
		return false
	}
	return this.EqualVT(that)
}
".
Definition e_grpc : list string := [e_grpc_1].

(** /repo/testproto/grpc/inner/inner_vtproto.pb.go *)
Definition e_grpc_inner_1 : string :=
"func (this *TestMessageRequest) EqualVT(that *TestMessageRequest) bool {
	if this == that {
		return true
	} else if this == nil || that == nil {
		return false
	}
	return string(this.unknownFields) == string(that.unknownFields)
}
func (this *TestMessageRequest) EqualMessageVT(thatMsg proto.Message) bool {
	that, ok := thatMsg.(*TestMessageRequest)
	if !ok {
		return false
	}
	return this.EqualVT(that)
}
func (this *TestMessageResponse) EqualVT(that *TestMessageResponse) bool {
	if this == that {
		return true
	} else if this == nil || that == nil {
		return false
	}
	return string(this.unknownFields) == string(that.unknownFields)
}
func (this *TestMessageResponse) EqualMessageVT(thatMsg proto.Message) bool {
	that, ok := thatMsg.(*TestMessageResponse)
	if !ok {
		return false
	}
	return this.EqualVT(that)
}
".
Definition e_grpc_inner : list string := [e_grpc_inner_1].

(** /repo/conformance/internal/conformance/conformance_vtproto.pb.go *)
Definition e_conformance_1 : string :=
"func (this *FailureSet) EqualVT(that *FailureSet) bool {
	if this == that {
		return true
	} else if this == nil || that == nil {
		return false
	}
	if len(this.Failure) != len(that.Failure) {
		return false
	}
	for i, vx := range this.Failure {
		vy := that.Failure[i]
		if vx != vy {
			return false
		}
	}
	return string(this.unknownFields) == string(that.unknownFields)
}
func (this *FailureSet) EqualMessageVT(thatMsg proto.Message) bool {
	that, ok := thatMsg.(*FailureSet)
	if !ok {
		return false
	}
	return this.EqualVT(that)
}
func (this *ConformanceRequest) EqualVT(that *ConformanceRequest) bool {
	if this == that {
		return true
	} else if this == nil || that == nil {
		return false
	}
	if this.Payload == nil && that.Payload != nil {
		return false
	} else if this.Payload != nil {
		if that.Payload == nil {
			return false
		}
		if !this.Payload.(interface {
			EqualVT(isConformanceRequest_Payload) bool
		}).EqualVT(that.Payload) {
			return false
		}
	}
	if this.RequestedOutputFormat != that.RequestedOutputFormat {
		return false
	}
	if this.MessageType != that.MessageType {
		return false
	}
	if this.TestCategory != that.TestCategory {
		return false
	}
	if !this.JspbEncodingOptions.EqualVT(that.JspbEncodingOptions) {
		return false
	}
	if this.PrintUnknownFields != that.PrintUnknownFields {
		return false
	}
	return string(this.unknownFields) == string(that.unknownFields)
}
func (this *ConformanceRequest) EqualMessageVT(thatMsg proto.Message) bool {
	that, ok := thatMsg.(*ConformanceRequest)
	if !ok {
		return false
	}
	return this.EqualVT(that)
}
func (this *ConformanceRequest_ProtobufPayload) EqualVT(thatIface isConformanceRequest_Payload) bool {
	that, ok := thatIface.(*ConformanceRequest_ProtobufPayload)
	if !ok {
		return false
	}
	if this == that {
		return true
	}
	if this == nil && that != nil || this != nil && that == nil {
		return false
	}
	if string(this.ProtobufPayload) != string(that.ProtobufPayload) {
		return false
	}
	return true
}
func (this *ConformanceRequest_JsonPayload) EqualVT(thatIface isConformanceRequest_Payload) bool {
	that, ok := thatIface.(*ConformanceRequest_JsonPayload)
	if !ok {
		return false
	}
	if this == that {
		return true
	}
	if this == nil && that != nil || this != nil && that == nil {
		return false
	}
	if this.JsonPayload != that.JsonPayload {
		return false
	}
	return true
}
func (this *ConformanceRequest_JspbPayload) EqualVT(thatIface isConformanceRequest_Payload) bool {
	that, ok := thatIface.(*ConformanceRequest_JspbPayload)
	if !ok {
		return false
	}
	if this == that {
		return true
	}
	if this == nil && that != nil || this != nil && that == nil {
		return false
	}
	if this.JspbPayload != that.JspbPayload {
		return false
	}
	return true
}
func (this *ConformanceRequest_TextPayload) EqualVT(thatIface isConformanceRequest_Payload) bool {
	that, ok := thatIface.(*ConformanceRequest_TextPayload)
	if !ok {
		return false
	}
	if this == that {
		return true
	}
	if this == nil && that != nil || this != nil && that == nil {
		return false
	}
	if this.TextPayload != that.TextPayload {
		return false
	}
	return true
}
func (this *ConformanceResponse) EqualVT(that *ConformanceResponse) bool {
	if this == that {
		return true
	} else if this == nil || that == nil {
		return false
	}
	if this.Result == nil && that.Result != nil {
		return false
	} else if this.Result != nil {
		if that.Result == nil {
			return false
		}
		if !this.Result.(interface {
			EqualVT(isConformanceResponse_Result) bool
		}).EqualVT(that.Result) {
			return false
		}
	}
	return string(this.unknownFields) == string(that.unknownFields)
}
func (this *ConformanceResponse) EqualMessageVT(thatMsg proto.Message) bool {
	that, ok := thatMsg.(*ConformanceResponse)
	if !ok {
		return false
	}
	return this.EqualVT(that)
}
func (this *ConformanceResponse_ParseError) EqualVT(thatIface isConformanceResponse_Result) bool {
	that, ok := thatIface.(*ConformanceResponse_ParseError)
	if !ok {
		return false
	}
	if this == that {
		return true
	}
	if this == nil && that != nil || this != nil && that == nil {
		return false
	}
	if this.ParseError != that.ParseError {
		return false
	}
	return true
}
func (this *ConformanceResponse_RuntimeError) EqualVT(thatIface isConformanceResponse_Result) bool {
	that, ok := thatIface.(*ConformanceResponse_RuntimeError)
	if !ok {
		return false
	}
	if this == that {
		return true
	}
	if this == nil && that != nil || this != nil && that == nil {
		return false
	}
	if this.RuntimeError != that.RuntimeError {
		return false
	}
	return true
}
func (this *ConformanceResponse_ProtobufPayload) EqualVT(thatIface isConformanceResponse_Result) bool {
	that, ok := thatIface.(*ConformanceResponse_ProtobufPayload)
	if !ok {
		return false
	}
	if this == that {
		return true
	}
	if this == nil && that != nil || this != nil && that == nil {
		return false
	}
	if string(this.ProtobufPayload) != string(that.ProtobufPayload) {
		return false
	}
	return true
}
func (this *ConformanceResponse_JsonPayload) EqualVT(thatIface isConformanceResponse_Result) bool {
	that, ok := thatIface.(*ConformanceResponse_JsonPayload)
	if !ok {
		return false
	}
	if this == that {
		return true
	}
	if this == nil && that != nil || this != nil && that == nil {
		return false
	}
	if this.JsonPayload != that.JsonPayload {
		return false
	}
	return true
}
func (this *ConformanceResponse_Skipped) EqualVT(thatIface isConformanceResponse_Result) bool {
	that, ok := thatIface.(*ConformanceResponse_Skipped)
	if !ok {
		return false
	}
	if this == that {
		return true
	}
	if this == nil && that != nil || this != nil && that == nil {
		return false
	}
	if this.Skipped != that.Skipped {
		return false
	}
	return true
}
func (this *ConformanceResponse_SerializeError) EqualVT(thatIface isConformanceResponse_Result) bool {
	that, ok := thatIface.(*ConformanceResponse_SerializeError)
	if !ok {
		return false
	}
	if this == that {
		return true
	}
	if this == nil && that != nil || this != nil && that == nil {
		return false
	}
	if this.SerializeError != that.SerializeError {
		return false
	}
	return true
}
func (this *ConformanceResponse_JspbPayload) EqualVT(thatIface isConformanceResponse_Result) bool {
	that, ok := thatIface.(*ConformanceResponse_JspbPayload)
	if !ok {
		return false
	}
	if this == that {
		return true
	}
	if this == nil && that != nil || this != nil && that == nil {
		return false
	}
	if this.JspbPayload != that.JspbPayload {
		return false
	}
	return true
}
func (this *ConformanceResponse_TextPayload) EqualVT(thatIface isConformanceResponse_Result) bool {
	that, ok := thatIface.(*ConformanceResponse_TextPayload)
	if !ok {
		return false
	}
	if this == that {
		return true
	}
	if this == nil && that != nil || this != nil && that == nil {
		return false
	}
	if this.TextPayload != that.TextPayload {
		return false
	}
	return true
}
func (this *JspbEncodingConfig) EqualVT(that *JspbEncodingConfig) bool {
	if this == that {
		return true
	} else if this == nil || that == nil {
		return false
	}
	if this.UseJspbArrayAnyFormat != that.UseJspbArrayAnyFormat {
		return false
	}
	return string(this.unknownFields) == string(that.unknownFields)
}
func (this *JspbEncodingConfig) EqualMessageVT(thatMsg proto.Message) bool {
	that, ok := thatMsg.(*JspbEncodingConfig)
	if !ok {
		return false
	}
	return this.EqualVT(that)
}
".
Definition e_conformance : list string := [e_conformance_1].

(** /repo/conformance/internal/conformance/test_messages_proto2_vtproto.pb.go *)
Definition e_conformance2_1 : string :=
"func (this *TestAllTypesProto2_NestedMessage) EqualVT(that *TestAllTypesProto2_NestedMessage) bool {
	if this == that {
		return true
	} else if this == nil || that == nil {
		return false
	}
	if p, q := this.A, that.A; (p == nil && q != nil) || (p != nil && (q == nil || *p != *q)) {
		return false
	}
	if !this.Corecursive.EqualVT(that.Corecursive) {
		return false
	}
	return string(this.unknownFields) == string(that.unknownFields)
}
func (this *TestAllTypesProto2_NestedMessage) EqualMessageVT(thatMsg proto.Message) bool {
	that, ok := thatMsg.(*TestAllTypesProto2_NestedMessage)
	if !ok {
		return false
	}
	return this.EqualVT(that)
}
func (this *TestAllTypesProto2_Data) EqualVT(that *TestAllTypesProto2_Data) bool {
	if this == that {
		return true
	} else if this == nil || that == nil {
		return false
	}
	if p, q := this.GroupInt32, that.GroupInt32; (p == nil && q != nil) || (p != nil && (q == nil || *p != *q)) {
		return false
	}
	if p, q := this.GroupUint32, that.GroupUint32; (p == nil && q != nil) || (p != nil && (q == nil || *p != *q)) {
		return false
	}
	return string(this.unknownFields) == string(that.unknownFields)
}
func (this *TestAllTypesProto2_Data) EqualMessageVT(thatMsg proto.Message) bool {
	that, ok := thatMsg.(*TestAllTypesProto2_Data)
	if !ok {
		return false
	}
	return this.EqualVT(that)
}
func (this *TestAllTypesProto2_MessageSetCorrect) EqualVT(that *TestAllTypesProto2_MessageSetCorrect) bool {
	if this == that {
		return true
	} else if this == nil || that == nil {
		return false
	}
	return string(this.unknownFields) == string(that.unknownFields)
}
func (this *TestAllTypesProto2_MessageSetCorrect) EqualMessageVT(thatMsg proto.Message) bool {
	that, ok := thatMsg.(*TestAllTypesProto2_MessageSetCorrect)
	if !ok {
		return false
	}
	return this.EqualVT(that)
}
func (this *TestAllTypesProto2_MessageSetCorrectExtension1) EqualVT(that *TestAllTypesProto2_MessageSetCorrectExtension1) bool {
	if this == that {
		return true
	} else if this == nil || that == nil {
		return false
	}
	if p, q := this.Str, that.Str; (p == nil && q != nil) || (p != nil && (q == nil || *p != *q)) {
		return false
	}
	return string(this.unknownFields) == string(that.unknownFields)
}
func (this *TestAllTypesProto2_MessageSetCorrectExtension1) EqualMessageVT(thatMsg proto.Message) bool {
	that, ok := thatMsg.(*TestAllTypesProto2_MessageSetCorrectExtension1)
	if !ok {
		return false
	}
	return this.EqualVT(that)
}
func (this *TestAllTypesProto2_MessageSetCorrectExtension2) EqualVT(that *TestAllTypesProto2_MessageSetCorrectExtension2) bool {
	if this == that {
		return true
	} else if this == nil || that == nil {
		return false
	}
	if p, q := this.I, that.I; (p == nil && q != nil) || (p != nil && (q == nil || *p != *q)) {
		return false
	}
	return string(this.unknownFields) == string(that.unknownFields)
}
func (this *TestAllTypesProto2_MessageSetCorrectExtension2) EqualMessageVT(thatMsg proto.Message) bool {
	that, ok := thatMsg.(*TestAllTypesProto2_MessageSetCorrectExtension2)
	if !ok {
		return false
	}
	return this.EqualVT(that)
}
func (this *TestAllTypesProto2) EqualVT(that *TestAllTypesProto2) bool {
	if this == that {
		return true
	} else if this == nil || that == nil {
		return false
	}
	if this.OneofField == nil && that.OneofField != nil {
		return false
	} else if this.OneofField != nil {
		if that.OneofField == nil {
			return false
		}
		if !this.OneofField.(interface {
			EqualVT(isTestAllTypesProto2_OneofField) bool
		}).EqualVT(that.OneofField) {
			return false
		}
	}
	if p, q := this.OptionalInt32, that.OptionalInt32; (p == nil && q != nil) || (p != nil && (q == nil || *p != *q)) {
		return false
	}
	if p, q := this.OptionalInt64, that.OptionalInt64; (p == nil && q != nil) || (p != nil && (q == nil || *p != *q)) {
		return false
	}
	if p, q := this.OptionalUint32, that.OptionalUint32; (p == nil && q != nil) || (p != nil && (q == nil || *p != *q)) {
		return false
	}
	if p, q := this.OptionalUint64, that.OptionalUint64; (p == nil && q != nil) || (p != nil && (q == nil || *p != *q)) {
		return false
	}
	if p, q := this.OptionalSint32, that.OptionalSint32; (p == nil && q != nil) || (p != nil && (q == nil || *p != *q)) {
		return false
	}
	if p, q := this.OptionalSint64, that.OptionalSint64; (p == nil && q != nil) || (p != nil && (q == nil || *p != *q)) {
		return false
	}
	if p, q := this.OptionalFixed32, that.OptionalFixed32; (p == nil && q != nil) || (p != nil && (q == nil || *p != *q)) {
		return false
	}
	if p, q := this.OptionalFixed64, that.OptionalFixed64; (p == nil && q != nil) || (p != nil && (q == nil || *p != *q)) {
		return false
	}
	if p, q := this.OptionalSfixed32, that.OptionalSfixed32; (p == nil && q != nil) || (p != nil && (q == nil || *p != *q)) {
		return false
	}
	if p, q := this.OptionalSfixed64, that.OptionalSfixed64; (p == nil && q != nil) || (p != nil && (q == nil || *p != *q)) {
		return false
	}
	if p, q := this.OptionalFloat, that.OptionalFloat; (p == nil && q != nil) || (p != nil && (q == nil || *p != *q)) {
		return false
	}
	if p, q := this.OptionalDouble, that.OptionalDouble; (p == nil && q != nil) || (p != nil && (q == nil || *p != *q)) {
		return false
	}
	if p, q := this.OptionalBool, that.OptionalBool; (p == nil && q != nil) || (p != nil && (q == nil || *p != *q)) {
		return false
	}
	if p, q := this.OptionalString, that.OptionalString; (p == nil && q != nil) || (p != nil && (q == nil || *p != *q)) {
		return false
	}
	if p, q := this.OptionalBytes, that.OptionalBytes; (p == nil && q != nil) || (p != nil && q == nil) || string(p) != string(q) {
		return false
	}
	if !this.OptionalNestedMessage.EqualVT(that.OptionalNestedMessage) {
		return false
	}
	if !this.OptionalForeignMessage.EqualVT(that.OptionalForeignMessage) {
		return false
	}
	if p, q := this.OptionalNestedEnum, that.OptionalNestedEnum; (p == nil && q != nil) || (p != nil && (q == nil || *p != *q)) {
		return false
	}
	if p, q := this.OptionalForeignEnum, that.OptionalForeignEnum; (p == nil && q != nil) || (p != nil && (q == nil || *p != *q)) {
		return false
	}
	if p, q := this.OptionalStringPiece, that.OptionalStringPiece; (p == nil && q != nil) || (p != nil && (q == nil || *p != *q)) {
		return false
	}
	if p, q := this.OptionalCord, that.OptionalCord; (p == nil && q != nil) || (p != nil && (q == nil || *p != *q)) {
		return false
	}
	if !this.RecursiveMessage.EqualVT(that.RecursiveMessage) {
		return false
	}
	if len(this.RepeatedInt32) != len(that.RepeatedInt32) {
		return false
	}
	for i, vx := range this.RepeatedInt32 {
		vy := that.RepeatedInt32[i]
		if vx != vy {
			return false
		}
	}
	if len(this.RepeatedInt64) != len(that.RepeatedInt64) {
		return false
	}
	for i, vx := range this.RepeatedInt64 {
		vy := that.RepeatedInt64[i]
		if vx != vy {
			return false
		}
	}
	if len(this.RepeatedUint32) != len(that.RepeatedUint32) {
		return false
	}
	for i, vx := range this.RepeatedUint32 {
		vy := that.RepeatedUint32[i]
		if vx != vy {
			return false
		}
	}
	if len(this.RepeatedUint64) != len(that.RepeatedUint64) {
		return false
	}
	for i, vx := range this.RepeatedUint64 {
		vy := that.RepeatedUint64[i]
		if vx != vy {
			return false
		}
	}
	if len(this.RepeatedSint32) != len(that.RepeatedSint32) {
		return false
	}
	for i, vx := range this.RepeatedSint32 {
		vy := that.RepeatedSint32[i]
		if vx != vy {
			return false
		}
	}
	if len(this.RepeatedSint64) != len(that.RepeatedSint64) {
		return false
	}
	for i, vx := range this.RepeatedSint64 {
		vy := that.RepeatedSint64[i]
		if vx != vy {
			return false
		}
	}
	if len(this.RepeatedFixed32) != len(that.RepeatedFixed32) {
		return false
	}
	for i, vx := range this.RepeatedFixed32 {
		vy := that.RepeatedFixed32[i]
		if vx != vy {
			return false
		}
	}
	if len(this.RepeatedFixed64) != len(that.RepeatedFixed64) {
		return false
	}
	for i, vx := range this.RepeatedFixed64 {
		vy := that.RepeatedFixed64[i]
		if vx != vy {
			return false
		}
	}
".
Definition e_conformance2_2 : string :=
"	if len(this.RepeatedSfixed32) != len(that.RepeatedSfixed32) {
		return false
	}
	for i, vx := range this.RepeatedSfixed32 {
		vy := that.RepeatedSfixed32[i]
		if vx != vy {
			return false
		}
	}
	if len(this.RepeatedSfixed64) != len(that.RepeatedSfixed64) {
		return false
	}
	for i, vx := range this.RepeatedSfixed64 {
		vy := that.RepeatedSfixed64[i]
		if vx != vy {
			return false
		}
	}
	if len(this.RepeatedFloat) != len(that.RepeatedFloat) {
		return false
	}
	for i, vx := range this.RepeatedFloat {
		vy := that.RepeatedFloat[i]
		if vx != vy {
			return false
		}
	}
	if len(this.RepeatedDouble) != len(that.RepeatedDouble) {
		return false
	}
	for i, vx := range this.RepeatedDouble {
		vy := that.RepeatedDouble[i]
		if vx != vy {
			return false
		}
	}
	if len(this.RepeatedBool) != len(that.RepeatedBool) {
		return false
	}
	for i, vx := range this.RepeatedBool {
		vy := that.RepeatedBool[i]
		if vx != vy {
			return false
		}
	}
	if len(this.RepeatedString) != len(that.RepeatedString) {
		return false
	}
	for i, vx := range this.RepeatedString {
		vy := that.RepeatedString[i]
		if vx != vy {
			return false
		}
	}
	if len(this.RepeatedBytes) != len(that.RepeatedBytes) {
		return false
	}
	for i, vx := range this.RepeatedBytes {
		vy := that.RepeatedBytes[i]
		if string(vx) != string(vy) {
			return false
		}
	}
	if len(this.RepeatedNestedMessage) != len(that.RepeatedNestedMessage) {
		return false
	}
	for i, vx := range this.RepeatedNestedMessage {
		vy := that.RepeatedNestedMessage[i]
		if p, q := vx, vy; p != q {
			if p == nil {
				p = &TestAllTypesProto2_NestedMessage{}
			}
			if q == nil {
				q = &TestAllTypesProto2_NestedMessage{}
			}
			if !p.EqualVT(q) {
				return false
			}
		}
	}
	if len(this.RepeatedForeignMessage) != len(that.RepeatedForeignMessage) {
		return false
	}
	for i, vx := range this.RepeatedForeignMessage {
		vy := that.RepeatedForeignMessage[i]
		if p, q := vx, vy; p != q {
			if p == nil {
				p = &ForeignMessageProto2{}
			}
			if q == nil {
				q = &ForeignMessageProto2{}
			}
			if !p.EqualVT(q) {
				return false
			}
		}
	}
	if len(this.RepeatedNestedEnum) != len(that.RepeatedNestedEnum) {
		return false
	}
	for i, vx := range this.RepeatedNestedEnum {
		vy := that.RepeatedNestedEnum[i]
		if vx != vy {
			return false
		}
	}
	if len(this.RepeatedForeignEnum) != len(that.RepeatedForeignEnum) {
		return false
	}
	for i, vx := range this.RepeatedForeignEnum {
		vy := that.RepeatedForeignEnum[i]
		if vx != vy {
			return false
		}
	}
	if len(this.RepeatedStringPiece) != len(that.RepeatedStringPiece) {
		return false
	}
	for i, vx := range this.RepeatedStringPiece {
		vy := that.RepeatedStringPiece[i]
		if vx != vy {
			return false
		}
	}
	if len(this.RepeatedCord) != len(that.RepeatedCord) {
		return false
	}
	for i, vx := range this.RepeatedCord {
		vy := that.RepeatedCord[i]
		if vx != vy {
			return false
		}
	}
	if len(this.MapInt32Int32) != len(that.MapInt32Int32) {
		return false
	}
	for i, vx := range this.MapInt32Int32 {
		vy, ok := that.MapInt32Int32[i]
		if !ok {
			return false
		}
		if vx != vy {
			return false
		}
	}
	if len(this.MapInt64Int64) != len(that.MapInt64Int64) {
		return false
	}
	for i, vx := range this.MapInt64Int64 {
		vy, ok := that.MapInt64Int64[i]
		if !ok {
			return false
		}
		if vx != vy {
			return false
		}
	}
	if len(this.MapUint32Uint32) != len(that.MapUint32Uint32) {
		return false
	}
	for i, vx := range this.MapUint32Uint32 {
		vy, ok := that.MapUint32Uint32[i]
		if !ok {
			return false
		}
		if vx != vy {
			return false
		}
	}
	if len(this.MapUint64Uint64) != len(that.MapUint64Uint64) {
		return false
	}
	for i, vx := range this.MapUint64Uint64 {
		vy, ok := that.MapUint64Uint64[i]
		if !ok {
			return false
		}
		if vx != vy {
			return false
		}
	}
	if len(this.MapSint32Sint32) != len(that.MapSint32Sint32) {
		return false
	}
	for i, vx := range this.MapSint32Sint32 {
		vy, ok := that.MapSint32Sint32[i]
		if !ok {
			return false
		}
		if vx != vy {
			return false
		}
	}
	if len(this.MapSint64Sint64) != len(that.MapSint64Sint64) {
		return false
	}
	for i, vx := range this.MapSint64Sint64 {
		vy, ok := that.MapSint64Sint64[i]
		if !ok {
			return false
		}
		if vx != vy {
			return false
		}
	}
	if len(this.MapFixed32Fixed32) != len(that.MapFixed32Fixed32) {
		return false
	}
	for i, vx := range this.MapFixed32Fixed32 {
		vy, ok := that.MapFixed32Fixed32[i]
		if !ok {
			return false
		}
		if vx != vy {
			return false
		}
	}
	if len(this.MapFixed64Fixed64) != len(that.MapFixed64Fixed64) {
		return false
	}
	for i, vx := range this.MapFixed64Fixed64 {
		vy, ok := that.MapFixed64Fixed64[i]
		if !ok {
			return false
		}
		if vx != vy {
			return false
		}
	}
	if len(this.MapSfixed32Sfixed32) != len(that.MapSfixed32Sfixed32) {
		return false
	}
	for i, vx := range this.MapSfixed32Sfixed32 {
		vy, ok := that.MapSfixed32Sfixed32[i]
		if !ok {
			return false
		}
		if vx != vy {
			return false
		}
	}
	if len(this.MapSfixed64Sfixed64) != len(that.MapSfixed64Sfixed64) {
		return false
	}
	for i, vx := range this.MapSfixed64Sfixed64 {
		vy, ok := that.MapSfixed64Sfixed64[i]
		if !ok {
			return false
		}
		if vx != vy {
			return false
		}
	}
	if len(this.MapInt32Float) != len(that.MapInt32Float) {
		return false
	}
	for i, vx := range this.MapInt32Float {
		vy, ok := that.MapInt32Float[i]
		if !ok {
			return false
		}
		if vx != vy {
			return false
		}
	}
	if len(this.MapInt32Double) != len(that.MapInt32Double) {
		return false
	}
	for i, vx := range this.MapInt32Double {
		vy, ok := that.MapInt32Double[i]
		if !ok {
			return false
		}
		if vx != vy {
			return false
		}
	}
	if len(this.MapBoolBool) != len(that.MapBoolBool) {
		return false
	}
	for i, vx := range this.MapBoolBool {
		vy, ok := that.MapBoolBool[i]
		if !ok {
			return false
		}
		if vx != vy {
			return false
		}
	}
	if len(this.MapStringString) != len(that.MapStringString) {
		return false
	}
	for i, vx := range this.MapStringString {
		vy, ok := that.MapStringString[i]
		if !ok {
			return false
		}
		if vx != vy {
			return false
		}
	}
	if len(this.MapStringBytes) != len(that.MapStringBytes) {
		return false
	}
	for i, vx := range this.MapStringBytes {
		vy, ok := that.MapStringBytes[i]
		if !ok {
			return false
		}
		if string(vx) != string(vy) {
			return false
		}
	}
	if len(this.MapStringNestedMessage) != len(that.MapStringNestedMessage) {
		return false
	}
	for i, vx := range this.MapStringNestedMessage {
		vy, ok := that.MapStringNestedMessage[i]
		if !ok {
			return false
		}
		if p, q := vx, vy; p != q {
			if p == nil {
				p = &TestAllTypesProto2_NestedMessage{}
			}
			if q == nil {
				q = &TestAllTypesProto2_NestedMessage{}
			}
			if !p.EqualVT(q) {
				return false
			}
		}
	}
	if len(this.MapStringForeignMessage) != len(that.MapStringForeignMessage) {
		return false
	}
	for i, vx := range this.MapStringForeignMessage {
		vy, ok := that.MapStringForeignMessage[i]
		if !ok {
			return false
		}
		if p, q := vx, vy; p != q {
			if p == nil {
				p = &ForeignMessageProto2{}
			}
			if q == nil {
				q = &ForeignMessageProto2{}
			}
			if !p.EqualVT(q) {
				return false
			}
		}
	}
	if len(this.MapStringNestedEnum) != len(that.MapStringNestedEnum) {
		return false
	}
	for i, vx := range this.MapStringNestedEnum {
		vy, ok := that.MapStringNestedEnum[i]
		if !ok {
			return false
		}
		if vx != vy {
			return false
		}
	}
	if len(this.MapStringForeignEnum) != len(that.MapStringForeignEnum) {
		return false
	}
	for i, vx := range this.MapStringForeignEnum {
		vy, ok := that.MapStringForeignEnum[i]
		if !ok {
			return false
		}
		if vx != vy {
			return false
		}
	}
	if len(this.PackedInt32) != len(that.PackedInt32) {
		return false
	}
	for i, vx := range this.PackedInt32 {
		vy := that.PackedInt32[i]
		if vx != vy {
			return false
		}
	}
	if len(this.PackedInt64) != len(that.PackedInt64) {
		return false
	}
	for i, vx := range this.PackedInt64 {
		vy := that.PackedInt64[i]
".
Definition e_conformance2_3 : string :=
"		if vx != vy {
			return false
		}
	}
	if len(this.PackedUint32) != len(that.PackedUint32) {
		return false
	}
	for i, vx := range this.PackedUint32 {
		vy := that.PackedUint32[i]
		if vx != vy {
			return false
		}
	}
	if len(this.PackedUint64) != len(that.PackedUint64) {
		return false
	}
	for i, vx := range this.PackedUint64 {
		vy := that.PackedUint64[i]
		if vx != vy {
			return false
		}
	}
	if len(this.PackedSint32) != len(that.PackedSint32) {
		return false
	}
	for i, vx := range this.PackedSint32 {
		vy := that.PackedSint32[i]
		if vx != vy {
			return false
		}
	}
	if len(this.PackedSint64) != len(that.PackedSint64) {
		return false
	}
	for i, vx := range this.PackedSint64 {
		vy := that.PackedSint64[i]
		if vx != vy {
			return false
		}
	}
	if len(this.PackedFixed32) != len(that.PackedFixed32) {
		return false
	}
	for i, vx := range this.PackedFixed32 {
		vy := that.PackedFixed32[i]
		if vx != vy {
			return false
		}
	}
	if len(this.PackedFixed64) != len(that.PackedFixed64) {
		return false
	}
	for i, vx := range this.PackedFixed64 {
		vy := that.PackedFixed64[i]
		if vx != vy {
			return false
		}
	}
	if len(this.PackedSfixed32) != len(that.PackedSfixed32) {
		return false
	}
	for i, vx := range this.PackedSfixed32 {
		vy := that.PackedSfixed32[i]
		if vx != vy {
			return false
		}
	}
	if len(this.PackedSfixed64) != len(that.PackedSfixed64) {
		return false
	}
	for i, vx := range this.PackedSfixed64 {
		vy := that.PackedSfixed64[i]
		if vx != vy {
			return false
		}
	}
	if len(this.PackedFloat) != len(that.PackedFloat) {
		return false
	}
	for i, vx := range this.PackedFloat {
		vy := that.PackedFloat[i]
		if vx != vy {
			return false
		}
	}
	if len(this.PackedDouble) != len(that.PackedDouble) {
		return false
	}
	for i, vx := range this.PackedDouble {
		vy := that.PackedDouble[i]
		if vx != vy {
			return false
		}
	}
	if len(this.PackedBool) != len(that.PackedBool) {
		return false
	}
	for i, vx := range this.PackedBool {
		vy := that.PackedBool[i]
		if vx != vy {
			return false
		}
	}
	if len(this.PackedNestedEnum) != len(that.PackedNestedEnum) {
		return false
	}
	for i, vx := range this.PackedNestedEnum {
		vy := that.PackedNestedEnum[i]
		if vx != vy {
			return false
		}
	}
	if len(this.UnpackedInt32) != len(that.UnpackedInt32) {
		return false
	}
	for i, vx := range this.UnpackedInt32 {
		vy := that.UnpackedInt32[i]
		if vx != vy {
			return false
		}
	}
	if len(this.UnpackedInt64) != len(that.UnpackedInt64) {
		return false
	}
	for i, vx := range this.UnpackedInt64 {
		vy := that.UnpackedInt64[i]
		if vx != vy {
			return false
		}
	}
	if len(this.UnpackedUint32) != len(that.UnpackedUint32) {
		return false
	}
	for i, vx := range this.UnpackedUint32 {
		vy := that.UnpackedUint32[i]
		if vx != vy {
			return false
		}
	}
	if len(this.UnpackedUint64) != len(that.UnpackedUint64) {
		return false
	}
	for i, vx := range this.UnpackedUint64 {
		vy := that.UnpackedUint64[i]
		if vx != vy {
			return false
		}
	}
	if len(this.UnpackedSint32) != len(that.UnpackedSint32) {
		return false
	}
	for i, vx := range this.UnpackedSint32 {
		vy := that.UnpackedSint32[i]
		if vx != vy {
			return false
		}
	}
	if len(this.UnpackedSint64) != len(that.UnpackedSint64) {
		return false
	}
	for i, vx := range this.UnpackedSint64 {
		vy := that.UnpackedSint64[i]
		if vx != vy {
			return false
		}
	}
	if len(this.UnpackedFixed32) != len(that.UnpackedFixed32) {
		return false
	}
	for i, vx := range this.UnpackedFixed32 {
		vy := that.UnpackedFixed32[i]
		if vx != vy {
			return false
		}
	}
	if len(this.UnpackedFixed64) != len(that.UnpackedFixed64) {
		return false
	}
	for i, vx := range this.UnpackedFixed64 {
		vy := that.UnpackedFixed64[i]
		if vx != vy {
			return false
		}
	}
	if len(this.UnpackedSfixed32) != len(that.UnpackedSfixed32) {
		return false
	}
	for i, vx := range this.UnpackedSfixed32 {
		vy := that.UnpackedSfixed32[i]
		if vx != vy {
			return false
		}
	}
	if len(this.UnpackedSfixed64) != len(that.UnpackedSfixed64) {
		return false
	}
	for i, vx := range this.UnpackedSfixed64 {
		vy := that.UnpackedSfixed64[i]
		if vx != vy {
			return false
		}
	}
	if len(this.UnpackedFloat) != len(that.UnpackedFloat) {
		return false
	}
	for i, vx := range this.UnpackedFloat {
		vy := that.UnpackedFloat[i]
		if vx != vy {
			return false
		}
	}
	if len(this.UnpackedDouble) != len(that.UnpackedDouble) {
		return false
	}
	for i, vx := range this.UnpackedDouble {
		vy := that.UnpackedDouble[i]
		if vx != vy {
			return false
		}
	}
	if len(this.UnpackedBool) != len(that.UnpackedBool) {
		return false
	}
	for i, vx := range this.UnpackedBool {
		vy := that.UnpackedBool[i]
		if vx != vy {
			return false
		}
	}
	if len(this.UnpackedNestedEnum) != len(that.UnpackedNestedEnum) {
		return false
	}
	for i, vx := range this.UnpackedNestedEnum {
		vy := that.UnpackedNestedEnum[i]
		if vx != vy {
			return false
		}
	}
	if !this.Data.EqualVT(that.Data) {
		return false
	}
	if p, q := this.DefaultInt32, that.DefaultInt32; (p == nil && q != nil) || (p != nil && (q == nil || *p != *q)) {
		return false
	}
	if p, q := this.DefaultInt64, that.DefaultInt64; (p == nil && q != nil) || (p != nil && (q == nil || *p != *q)) {
		return false
	}
	if p, q := this.DefaultUint32, that.DefaultUint32; (p == nil && q != nil) || (p != nil && (q == nil || *p != *q)) {
		return false
	}
	if p, q := this.DefaultUint64, that.DefaultUint64; (p == nil && q != nil) || (p != nil && (q == nil || *p != *q)) {
		return false
	}
	if p, q := this.DefaultSint32, that.DefaultSint32; (p == nil && q != nil) || (p != nil && (q == nil || *p != *q)) {
		return false
	}
	if p, q := this.DefaultSint64, that.DefaultSint64; (p == nil && q != nil) || (p != nil && (q == nil || *p != *q)) {
		return false
	}
	if p, q := this.DefaultFixed32, that.DefaultFixed32; (p == nil && q != nil) || (p != nil && (q == nil || *p != *q)) {
		return false
	}
	if p, q := this.DefaultFixed64, that.DefaultFixed64; (p == nil && q != nil) || (p != nil && (q == nil || *p != *q)) {
		return false
	}
	if p, q := this.DefaultSfixed32, that.DefaultSfixed32; (p == nil && q != nil) || (p != nil && (q == nil || *p != *q)) {
		return false
	}
	if p, q := this.DefaultSfixed64, that.DefaultSfixed64; (p == nil && q != nil) || (p != nil && (q == nil || *p != *q)) {
		return false
	}
	if p, q := this.DefaultFloat, that.DefaultFloat; (p == nil && q != nil) || (p != nil && (q == nil || *p != *q)) {
		return false
	}
	if p, q := this.DefaultDouble, that.DefaultDouble; (p == nil && q != nil) || (p != nil && (q == nil || *p != *q)) {
		return false
	}
	if p, q := this.DefaultBool, that.DefaultBool; (p == nil && q != nil) || (p != nil && (q == nil || *p != *q)) {
		return false
	}
	if p, q := this.DefaultString, that.DefaultString; (p == nil && q != nil) || (p != nil && (q == nil || *p != *q)) {
		return false
	}
	if p, q := this.DefaultBytes, that.DefaultBytes; (p == nil && q != nil) || (p != nil && q == nil) || string(p) != string(q) {
		return false
	}
	if p, q := this.Fieldname1, that.Fieldname1; (p == nil && q != nil) || (p != nil && (q == nil || *p != *q)) {
		return false
	}
	if p, q := this.FieldName2, that.FieldName2; (p == nil && q != nil) || (p != nil && (q == nil || *p != *q)) {
		return false
	}
	if p, q := this.XFieldName3, that.XFieldName3; (p == nil && q != nil) || (p != nil && (q == nil || *p != *q)) {
		return false
	}
	if p, q := this.Field_Name4_, that.Field_Name4_; (p == nil && q != nil) || (p != nil && (q == nil || *p != *q)) {
		return false
	}
	if p, q := this.Field0Name5, that.Field0Name5; (p == nil && q != nil) || (p != nil && (q == nil || *p != *q)) {
		return false
	}
	if p, q := this.Field_0Name6, that.Field_0Name6; (p == nil && q != nil) || (p != nil && (q == nil || *p != *q)) {
		return false
	}
	if p, q := this.FieldName7, that.FieldName7; (p == nil && q != nil) || (p != nil && (q == nil || *p != *q)) {
		return false
	}
".
Definition e_conformance2_4 : string :=
"	if p, q := this.FieldName8, that.FieldName8; (p == nil && q != nil) || (p != nil && (q == nil || *p != *q)) {
		return false
	}
	if p, q := this.Field_Name9, that.Field_Name9; (p == nil && q != nil) || (p != nil && (q == nil || *p != *q)) {
		return false
	}
	if p, q := this.Field_Name10, that.Field_Name10; (p == nil && q != nil) || (p != nil && (q == nil || *p != *q)) {
		return false
	}
	if p, q := this.FIELD_NAME11, that.FIELD_NAME11; (p == nil && q != nil) || (p != nil && (q == nil || *p != *q)) {
		return false
	}
	if p, q := this.FIELDName12, that.FIELDName12; (p == nil && q != nil) || (p != nil && (q == nil || *p != *q)) {
		return false
	}
	if p, q := this.XFieldName13, that.XFieldName13; (p == nil && q != nil) || (p != nil && (q == nil || *p != *q)) {
		return false
	}
	if p, q := this.X_FieldName14, that.X_FieldName14; (p == nil && q != nil) || (p != nil && (q == nil || *p != *q)) {
		return false
	}
	if p, q := this.Field_Name15, that.Field_Name15; (p == nil && q != nil) || (p != nil && (q == nil || *p != *q)) {
		return false
	}
	if p, q := this.Field__Name16, that.Field__Name16; (p == nil && q != nil) || (p != nil && (q == nil || *p != *q)) {
		return false
	}
	if p, q := this.FieldName17__, that.FieldName17__; (p == nil && q != nil) || (p != nil && (q == nil || *p != *q)) {
		return false
	}
	if p, q := this.FieldName18__, that.FieldName18__; (p == nil && q != nil) || (p != nil && (q == nil || *p != *q)) {
		return false
	}
	return string(this.unknownFields) == string(that.unknownFields)
}
func (this *TestAllTypesProto2) EqualMessageVT(thatMsg proto.Message) bool {
	that, ok := thatMsg.(*TestAllTypesProto2)
	if !ok {
		return false
	}
	return this.EqualVT(that)
}
func (this *TestAllTypesProto2_OneofUint32) EqualVT(thatIface isTestAllTypesProto2_OneofField) bool {
	that, ok := thatIface.(*TestAllTypesProto2_OneofUint32)
	if !ok {
		return false
	}
	if this == that {
		return true
	}
	if this == nil && that != nil || this != nil && that == nil {
		return false
	}
	if this.OneofUint32 != that.OneofUint32 {
		return false
	}
	return true
}
func (this *TestAllTypesProto2_OneofNestedMessage) EqualVT(thatIface isTestAllTypesProto2_OneofField) bool {
	that, ok := thatIface.(*TestAllTypesProto2_OneofNestedMessage)
	if !ok {
		return false
	}
	if this == that {
		return true
	}
	if this == nil && that != nil || this != nil && that == nil {
		return false
	}
	if p, q := this.OneofNestedMessage, that.OneofNestedMessage; p != q {
		if p == nil {
			p = &TestAllTypesProto2_NestedMessage{}
		}
		if q == nil {
			q = &TestAllTypesProto2_NestedMessage{}
		}
		if !p.EqualVT(q) {
			return false
		}
	}
	return true
}
func (this *TestAllTypesProto2_OneofString) EqualVT(thatIface isTestAllTypesProto2_OneofField) bool {
	that, ok := thatIface.(*TestAllTypesProto2_OneofString)
	if !ok {
		return false
	}
	if this == that {
		return true
	}
	if this == nil && that != nil || this != nil && that == nil {
		return false
	}
	if this.OneofString != that.OneofString {
		return false
	}
	return true
}
func (this *TestAllTypesProto2_OneofBytes) EqualVT(thatIface isTestAllTypesProto2_OneofField) bool {
	that, ok := thatIface.(*TestAllTypesProto2_OneofBytes)
	if !ok {
		return false
	}
	if this == that {
		return true
	}
	if this == nil && that != nil || this != nil && that == nil {
		return false
	}
	if string(this.OneofBytes) != string(that.OneofBytes) {
		return false
	}
	return true
}
func (this *TestAllTypesProto2_OneofBool) EqualVT(thatIface isTestAllTypesProto2_OneofField) bool {
	that, ok := thatIface.(*TestAllTypesProto2_OneofBool)
	if !ok {
		return false
	}
	if this == that {
		return true
	}
	if this == nil && that != nil || this != nil && that == nil {
		return false
	}
	if this.OneofBool != that.OneofBool {
		return false
	}
	return true
}
func (this *TestAllTypesProto2_OneofUint64) EqualVT(thatIface isTestAllTypesProto2_OneofField) bool {
	that, ok := thatIface.(*TestAllTypesProto2_OneofUint64)
	if !ok {
		return false
	}
	if this == that {
		return true
	}
	if this == nil && that != nil || this != nil && that == nil {
		return false
	}
	if this.OneofUint64 != that.OneofUint64 {
		return false
	}
	return true
}
func (this *TestAllTypesProto2_OneofFloat) EqualVT(thatIface isTestAllTypesProto2_OneofField) bool {
	that, ok := thatIface.(*TestAllTypesProto2_OneofFloat)
	if !ok {
		return false
	}
	if this == that {
		return true
	}
	if this == nil && that != nil || this != nil && that == nil {
		return false
	}
	if this.OneofFloat != that.OneofFloat {
		return false
	}
	return true
}
func (this *TestAllTypesProto2_OneofDouble) EqualVT(thatIface isTestAllTypesProto2_OneofField) bool {
	that, ok := thatIface.(*TestAllTypesProto2_OneofDouble)
	if !ok {
		return false
	}
	if this == that {
		return true
	}
	if this == nil && that != nil || this != nil && that == nil {
		return false
	}
	if this.OneofDouble != that.OneofDouble {
		return false
	}
	return true
}
func (this *TestAllTypesProto2_OneofEnum) EqualVT(thatIface isTestAllTypesProto2_OneofField) bool {
	that, ok := thatIface.(*TestAllTypesProto2_OneofEnum)
	if !ok {
		return false
	}
	if this == that {
		return true
	}
	if this == nil && that != nil || this != nil && that == nil {
		return false
	}
	if this.OneofEnum != that.OneofEnum {
		return false
	}
	return true
}
func (this *ForeignMessageProto2) EqualVT(that *ForeignMessageProto2) bool {
	if this == that {
		return true
	} else if this == nil || that == nil {
		return false
	}
	if p, q := this.C, that.C; (p == nil && q != nil) || (p != nil && (q == nil || *p != *q)) {
		return false
	}
	return string(this.unknownFields) == string(that.unknownFields)
}
func (this *ForeignMessageProto2) EqualMessageVT(thatMsg proto.Message) bool {
	that, ok := thatMsg.(*ForeignMessageProto2)
	if !ok {
		return false
	}
	return this.EqualVT(that)
}
func (this *UnknownToTestAllTypes_OptionalGroup) EqualVT(that *UnknownToTestAllTypes_OptionalGroup) bool {
	if this == that {
		return true
	} else if this == nil || that == nil {
		return false
	}
	if p, q := this.A, that.A; (p == nil && q != nil) || (p != nil && (q == nil || *p != *q)) {
		return false
	}
	return string(this.unknownFields) == string(that.unknownFields)
}
func (this *UnknownToTestAllTypes_OptionalGroup) EqualMessageVT(thatMsg proto.Message) bool {
	that, ok := thatMsg.(*UnknownToTestAllTypes_OptionalGroup)
	if !ok {
		return false
	}
	return this.EqualVT(that)
}
func (this *UnknownToTestAllTypes) EqualVT(that *UnknownToTestAllTypes) bool {
	if this == that {
		return true
	} else if this == nil || that == nil {
		return false
	}
	if p, q := this.OptionalInt32, that.OptionalInt32; (p == nil && q != nil) || (p != nil && (q == nil || *p != *q)) {
		return false
	}
	if p, q := this.OptionalString, that.OptionalString; (p == nil && q != nil) || (p != nil && (q == nil || *p != *q)) {
		return false
	}
	if !this.NestedMessage.EqualVT(that.NestedMessage) {
		return false
	}
	if !this.Optionalgroup.EqualVT(that.Optionalgroup) {
		return false
	}
	if p, q := this.OptionalBool, that.OptionalBool; (p == nil && q != nil) || (p != nil && (q == nil || *p != *q)) {
		return false
	}
	if len(this.RepeatedInt32) != len(that.RepeatedInt32) {
		return false
	}
	for i, vx := range this.RepeatedInt32 {
		vy := that.RepeatedInt32[i]
		if vx != vy {
			return false
		}
	}
	return string(this.unknownFields) == string(that.unknownFields)
}
func (this *UnknownToTestAllTypes) EqualMessageVT(thatMsg proto.Message) bool {
	that, ok := thatMsg.(*UnknownToTestAllTypes)
	if !ok {
		return false
	}
	return this.EqualVT(that)
}
func (this *NullHypothesisProto2) EqualVT(that *NullHypothesisProto2) bool {
	if this == that {
		return true
	} else if this == nil || that == nil {
		return false
	}
	return string(this.unknownFields) == string(that.unknownFields)
}
func (this *NullHypothesisProto2) EqualMessageVT(thatMsg proto.Message) bool {
	that, ok := thatMsg.(*NullHypothesisProto2)
	if !ok {
		return false
	}
	return this.EqualVT(that)
}
".
Definition e_conformance2_5 : string :=
"func (this *EnumOnlyProto2) EqualVT(that *EnumOnlyProto2) bool {
	if this == that {
		return true
	} else if this == nil || that == nil {
		return false
	}
	return string(this.unknownFields) == string(that.unknownFields)
}
func (this *EnumOnlyProto2) EqualMessageVT(thatMsg proto.Message) bool {
	that, ok := thatMsg.(*EnumOnlyProto2)
	if !ok {
		return false
	}
	return this.EqualVT(that)
}
func (this *OneStringProto2) EqualVT(that *OneStringProto2) bool {
	if this == that {
		return true
	} else if this == nil || that == nil {
		return false
	}
	if p, q := this.Data, that.Data; (p == nil && q != nil) || (p != nil && (q == nil || *p != *q)) {
		return false
	}
	return string(this.unknownFields) == string(that.unknownFields)
}
func (this *OneStringProto2) EqualMessageVT(thatMsg proto.Message) bool {
	that, ok := thatMsg.(*OneStringProto2)
	if !ok {
		return false
	}
	return this.EqualVT(that)
}
".
Definition e_conformance2 : list string := [e_conformance2_1; e_conformance2_2; e_conformance2_3; e_conformance2_4; e_conformance2_5].

(** /repo/conformance/internal/conformance/test_messages_proto3_vtproto.pb.go *)
Definition e_conformance3_1 : string :=
"func (this *TestAllTypesProto3_NestedMessage) EqualVT(that *TestAllTypesProto3_NestedMessage) bool {
	if this == that {
		return true
	} else if this == nil || that == nil {
		return false
	}
	if this.A != that.A {
		return false
	}
	if !this.Corecursive.EqualVT(that.Corecursive) {
		return false
	}
	return string(this.unknownFields) == string(that.unknownFields)
}
func (this *TestAllTypesProto3_NestedMessage) EqualMessageVT(thatMsg proto.Message) bool {
	that, ok := thatMsg.(*TestAllTypesProto3_NestedMessage)
	if !ok {
		return false
	}
	return this.EqualVT(that)
}
func (this *TestAllTypesProto3) EqualVT(that *TestAllTypesProto3) bool {
	if this == that {
		return true
	} else if this == nil || that == nil {
		return false
	}
	if this.OneofField == nil && that.OneofField != nil {
		return false
	} else if this.OneofField != nil {
		if that.OneofField == nil {
			return false
		}
		if !this.OneofField.(interface {
			EqualVT(isTestAllTypesProto3_OneofField) bool
		}).EqualVT(that.OneofField) {
			return false
		}
	}
	if this.OptionalInt32 != that.OptionalInt32 {
		return false
	}
	if this.OptionalInt64 != that.OptionalInt64 {
		return false
	}
	if this.OptionalUint32 != that.OptionalUint32 {
		return false
	}
	if this.OptionalUint64 != that.OptionalUint64 {
		return false
	}
	if this.OptionalSint32 != that.OptionalSint32 {
		return false
	}
	if this.OptionalSint64 != that.OptionalSint64 {
		return false
	}
	if this.OptionalFixed32 != that.OptionalFixed32 {
		return false
	}
	if this.OptionalFixed64 != that.OptionalFixed64 {
		return false
	}
	if this.OptionalSfixed32 != that.OptionalSfixed32 {
		return false
	}
	if this.OptionalSfixed64 != that.OptionalSfixed64 {
		return false
	}
	if this.OptionalFloat != that.OptionalFloat {
		return false
	}
	if this.OptionalDouble != that.OptionalDouble {
		return false
	}
	if this.OptionalBool != that.OptionalBool {
		return false
	}
	if this.OptionalString != that.OptionalString {
		return false
	}
	if string(this.OptionalBytes) != string(that.OptionalBytes) {
		return false
	}
	if !this.OptionalNestedMessage.EqualVT(that.OptionalNestedMessage) {
		return false
	}
	if !this.OptionalForeignMessage.EqualVT(that.OptionalForeignMessage) {
		return false
	}
	if this.OptionalNestedEnum != that.OptionalNestedEnum {
		return false
	}
	if this.OptionalForeignEnum != that.OptionalForeignEnum {
		return false
	}
	if this.OptionalAliasedEnum != that.OptionalAliasedEnum {
		return false
	}
	if this.OptionalStringPiece != that.OptionalStringPiece {
		return false
	}
	if this.OptionalCord != that.OptionalCord {
		return false
	}
	if !this.RecursiveMessage.EqualVT(that.RecursiveMessage) {
		return false
	}
	if len(this.RepeatedInt32) != len(that.RepeatedInt32) {
		return false
	}
	for i, vx := range this.RepeatedInt32 {
		vy := that.RepeatedInt32[i]
		if vx != vy {
			return false
		}
	}
	if len(this.RepeatedInt64) != len(that.RepeatedInt64) {
		return false
	}
	for i, vx := range this.RepeatedInt64 {
		vy := that.RepeatedInt64[i]
		if vx != vy {
			return false
		}
	}
	if len(this.RepeatedUint32) != len(that.RepeatedUint32) {
		return false
	}
	for i, vx := range this.RepeatedUint32 {
		vy := that.RepeatedUint32[i]
		if vx != vy {
			return false
		}
	}
	if len(this.RepeatedUint64) != len(that.RepeatedUint64) {
		return false
	}
	for i, vx := range this.RepeatedUint64 {
		vy := that.RepeatedUint64[i]
		if vx != vy {
			return false
		}
	}
	if len(this.RepeatedSint32) != len(that.RepeatedSint32) {
		return false
	}
	for i, vx := range this.RepeatedSint32 {
		vy := that.RepeatedSint32[i]
		if vx != vy {
			return false
		}
	}
	if len(this.RepeatedSint64) != len(that.RepeatedSint64) {
		return false
	}
	for i, vx := range this.RepeatedSint64 {
		vy := that.RepeatedSint64[i]
		if vx != vy {
			return false
		}
	}
	if len(this.RepeatedFixed32) != len(that.RepeatedFixed32) {
		return false
	}
	for i, vx := range this.RepeatedFixed32 {
		vy := that.RepeatedFixed32[i]
		if vx != vy {
			return false
		}
	}
	if len(this.RepeatedFixed64) != len(that.RepeatedFixed64) {
		return false
	}
	for i, vx := range this.RepeatedFixed64 {
		vy := that.RepeatedFixed64[i]
		if vx != vy {
			return false
		}
	}
	if len(this.RepeatedSfixed32) != len(that.RepeatedSfixed32) {
		return false
	}
	for i, vx := range this.RepeatedSfixed32 {
		vy := that.RepeatedSfixed32[i]
		if vx != vy {
			return false
		}
	}
	if len(this.RepeatedSfixed64) != len(that.RepeatedSfixed64) {
		return false
	}
	for i, vx := range this.RepeatedSfixed64 {
		vy := that.RepeatedSfixed64[i]
		if vx != vy {
			return false
		}
	}
	if len(this.RepeatedFloat) != len(that.RepeatedFloat) {
		return false
	}
	for i, vx := range this.RepeatedFloat {
		vy := that.RepeatedFloat[i]
		if vx != vy {
			return false
		}
	}
	if len(this.RepeatedDouble) != len(that.RepeatedDouble) {
		return false
	}
	for i, vx := range this.RepeatedDouble {
		vy := that.RepeatedDouble[i]
		if vx != vy {
			return false
		}
	}
	if len(this.RepeatedBool) != len(that.RepeatedBool) {
		return false
	}
	for i, vx := range this.RepeatedBool {
		vy := that.RepeatedBool[i]
		if vx != vy {
			return false
		}
	}
	if len(this.RepeatedString) != len(that.RepeatedString) {
		return false
	}
	for i, vx := range this.RepeatedString {
		vy := that.RepeatedString[i]
		if vx != vy {
			return false
		}
	}
	if len(this.RepeatedBytes) != len(that.RepeatedBytes) {
		return false
	}
	for i, vx := range this.RepeatedBytes {
		vy := that.RepeatedBytes[i]
		if string(vx) != string(vy) {
			return false
		}
	}
	if len(this.RepeatedNestedMessage) != len(that.RepeatedNestedMessage) {
		return false
	}
	for i, vx := range this.RepeatedNestedMessage {
		vy := that.RepeatedNestedMessage[i]
		if p, q := vx, vy; p != q {
			if p == nil {
				p = &TestAllTypesProto3_NestedMessage{}
			}
			if q == nil {
				q = &TestAllTypesProto3_NestedMessage{}
			}
			if !p.EqualVT(q) {
				return false
			}
		}
	}
	if len(this.RepeatedForeignMessage) != len(that.RepeatedForeignMessage) {
		return false
	}
	for i, vx := range this.RepeatedForeignMessage {
		vy := that.RepeatedForeignMessage[i]
		if p, q := vx, vy; p != q {
			if p == nil {
				p = &ForeignMessage{}
			}
			if q == nil {
				q = &ForeignMessage{}
			}
			if !p.EqualVT(q) {
				return false
			}
		}
	}
	if len(this.RepeatedNestedEnum) != len(that.RepeatedNestedEnum) {
		return false
	}
	for i, vx := range this.RepeatedNestedEnum {
		vy := that.RepeatedNestedEnum[i]
		if vx != vy {
			return false
		}
	}
	if len(this.RepeatedForeignEnum) != len(that.RepeatedForeignEnum) {
		return false
	}
	for i, vx := range this.RepeatedForeignEnum {
		vy := that.RepeatedForeignEnum[i]
		if vx != vy {
			return false
		}
	}
	if len(this.RepeatedStringPiece) != len(that.RepeatedStringPiece) {
		return false
	}
	for i, vx := range this.RepeatedStringPiece {
		vy := that.RepeatedStringPiece[i]
		if vx != vy {
			return false
		}
	}
	if len(this.RepeatedCord) != len(that.RepeatedCord) {
		return false
	}
	for i, vx := range this.RepeatedCord {
		vy := that.RepeatedCord[i]
		if vx != vy {
			return false
		}
	}
	if len(this.MapInt32Int32) != len(that.MapInt32Int32) {
		return false
	}
	for i, vx := range this.MapInt32Int32 {
		vy, ok := that.MapInt32Int32[i]
		if !ok {
			return false
		}
		if vx != vy {
			return false
		}
	}
	if len(this.MapInt64Int64) != len(that.MapInt64Int64) {
		return false
	}
	for i, vx := range this.MapInt64Int64 {
		vy, ok := that.MapInt64Int64[i]
		if !ok {
			return false
		}
		if vx != vy {
			return false
		}
	}
	if len(this.MapUint32Uint32) != len(that.MapUint32Uint32) {
		return false
	}
	for i, vx := range this.MapUint32Uint32 {
		vy, ok := that.MapUint32Uint32[i]
		if !ok {
			return false
		}
		if vx != vy {
			return false
		}
	}
	if len(this.MapUint64Uint64) != len(that.MapUint64Uint64) {
		return false
	}
	for i, vx := range this.MapUint64Uint64 {
		vy, ok := that.MapUint64Uint64[i]
		if !ok {
			return false
		}
		if vx != vy {
			return false
		}
	}
".
Definition e_conformance3_2 : string :=
"	if len(this.MapSint32Sint32) != len(that.MapSint32Sint32) {
		return false
	}
	for i, vx := range this.MapSint32Sint32 {
		vy, ok := that.MapSint32Sint32[i]
		if !ok {
			return false
		}
		if vx != vy {
			return false
		}
	}
	if len(this.MapSint64Sint64) != len(that.MapSint64Sint64) {
		return false
	}
	for i, vx := range this.MapSint64Sint64 {
		vy, ok := that.MapSint64Sint64[i]
		if !ok {
			return false
		}
		if vx != vy {
			return false
		}
	}
	if len(this.MapFixed32Fixed32) != len(that.MapFixed32Fixed32) {
		return false
	}
	for i, vx := range this.MapFixed32Fixed32 {
		vy, ok := that.MapFixed32Fixed32[i]
		if !ok {
			return false
		}
		if vx != vy {
			return false
		}
	}
	if len(this.MapFixed64Fixed64) != len(that.MapFixed64Fixed64) {
		return false
	}
	for i, vx := range this.MapFixed64Fixed64 {
		vy, ok := that.MapFixed64Fixed64[i]
		if !ok {
			return false
		}
		if vx != vy {
			return false
		}
	}
	if len(this.MapSfixed32Sfixed32) != len(that.MapSfixed32Sfixed32) {
		return false
	}
	for i, vx := range this.MapSfixed32Sfixed32 {
		vy, ok := that.MapSfixed32Sfixed32[i]
		if !ok {
			return false
		}
		if vx != vy {
			return false
		}
	}
	if len(this.MapSfixed64Sfixed64) != len(that.MapSfixed64Sfixed64) {
		return false
	}
	for i, vx := range this.MapSfixed64Sfixed64 {
		vy, ok := that.MapSfixed64Sfixed64[i]
		if !ok {
			return false
		}
		if vx != vy {
			return false
		}
	}
	if len(this.MapInt32Float) != len(that.MapInt32Float) {
		return false
	}
	for i, vx := range this.MapInt32Float {
		vy, ok := that.MapInt32Float[i]
		if !ok {
			return false
		}
		if vx != vy {
			return false
		}
	}
	if len(this.MapInt32Double) != len(that.MapInt32Double) {
		return false
	}
	for i, vx := range this.MapInt32Double {
		vy, ok := that.MapInt32Double[i]
		if !ok {
			return false
		}
		if vx != vy {
			return false
		}
	}
	if len(this.MapBoolBool) != len(that.MapBoolBool) {
		return false
	}
	for i, vx := range this.MapBoolBool {
		vy, ok := that.MapBoolBool[i]
		if !ok {
			return false
		}
		if vx != vy {
			return false
		}
	}
	if len(this.MapStringString) != len(that.MapStringString) {
		return false
	}
	for i, vx := range this.MapStringString {
		vy, ok := that.MapStringString[i]
		if !ok {
			return false
		}
		if vx != vy {
			return false
		}
	}
	if len(this.MapStringBytes) != len(that.MapStringBytes) {
		return false
	}
	for i, vx := range this.MapStringBytes {
		vy, ok := that.MapStringBytes[i]
		if !ok {
			return false
		}
		if string(vx) != string(vy) {
			return false
		}
	}
	if len(this.MapStringNestedMessage) != len(that.MapStringNestedMessage) {
		return false
	}
	for i, vx := range this.MapStringNestedMessage {
		vy, ok := that.MapStringNestedMessage[i]
		if !ok {
			return false
		}
		if p, q := vx, vy; p != q {
			if p == nil {
				p = &TestAllTypesProto3_NestedMessage{}
			}
			if q == nil {
				q = &TestAllTypesProto3_NestedMessage{}
			}
			if !p.EqualVT(q) {
				return false
			}
		}
	}
	if len(this.MapStringForeignMessage) != len(that.MapStringForeignMessage) {
		return false
	}
	for i, vx := range this.MapStringForeignMessage {
		vy, ok := that.MapStringForeignMessage[i]
		if !ok {
			return false
		}
		if p, q := vx, vy; p != q {
			if p == nil {
				p = &ForeignMessage{}
			}
			if q == nil {
				q = &ForeignMessage{}
			}
			if !p.EqualVT(q) {
				return false
			}
		}
	}
	if len(this.MapStringNestedEnum) != len(that.MapStringNestedEnum) {
		return false
	}
	for i, vx := range this.MapStringNestedEnum {
		vy, ok := that.MapStringNestedEnum[i]
		if !ok {
			return false
		}
		if vx != vy {
			return false
		}
	}
	if len(this.MapStringForeignEnum) != len(that.MapStringForeignEnum) {
		return false
	}
	for i, vx := range this.MapStringForeignEnum {
		vy, ok := that.MapStringForeignEnum[i]
		if !ok {
			return false
		}
		if vx != vy {
			return false
		}
	}
	if len(this.PackedInt32) != len(that.PackedInt32) {
		return false
	}
	for i, vx := range this.PackedInt32 {
		vy := that.PackedInt32[i]
		if vx != vy {
			return false
		}
	}
	if len(this.PackedInt64) != len(that.PackedInt64) {
		return false
	}
	for i, vx := range this.PackedInt64 {
		vy := that.PackedInt64[i]
		if vx != vy {
			return false
		}
	}
	if len(this.PackedUint32) != len(that.PackedUint32) {
		return false
	}
	for i, vx := range this.PackedUint32 {
		vy := that.PackedUint32[i]
		if vx != vy {
			return false
		}
	}
	if len(this.PackedUint64) != len(that.PackedUint64) {
		return false
	}
	for i, vx := range this.PackedUint64 {
		vy := that.PackedUint64[i]
		if vx != vy {
			return false
		}
	}
	if len(this.PackedSint32) != len(that.PackedSint32) {
		return false
	}
	for i, vx := range this.PackedSint32 {
		vy := that.PackedSint32[i]
		if vx != vy {
			return false
		}
	}
	if len(this.PackedSint64) != len(that.PackedSint64) {
		return false
	}
	for i, vx := range this.PackedSint64 {
		vy := that.PackedSint64[i]
		if vx != vy {
			return false
		}
	}
	if len(this.PackedFixed32) != len(that.PackedFixed32) {
		return false
	}
	for i, vx := range this.PackedFixed32 {
		vy := that.PackedFixed32[i]
		if vx != vy {
			return false
		}
	}
	if len(this.PackedFixed64) != len(that.PackedFixed64) {
		return false
	}
	for i, vx := range this.PackedFixed64 {
		vy := that.PackedFixed64[i]
		if vx != vy {
			return false
		}
	}
	if len(this.PackedSfixed32) != len(that.PackedSfixed32) {
		return false
	}
	for i, vx := range this.PackedSfixed32 {
		vy := that.PackedSfixed32[i]
		if vx != vy {
			return false
		}
	}
	if len(this.PackedSfixed64) != len(that.PackedSfixed64) {
		return false
	}
	for i, vx := range this.PackedSfixed64 {
		vy := that.PackedSfixed64[i]
		if vx != vy {
			return false
		}
	}
	if len(this.PackedFloat) != len(that.PackedFloat) {
		return false
	}
	for i, vx := range this.PackedFloat {
		vy := that.PackedFloat[i]
		if vx != vy {
			return false
		}
	}
	if len(this.PackedDouble) != len(that.PackedDouble) {
		return false
	}
	for i, vx := range this.PackedDouble {
		vy := that.PackedDouble[i]
		if vx != vy {
			return false
		}
	}
	if len(this.PackedBool) != len(that.PackedBool) {
		return false
	}
	for i, vx := range this.PackedBool {
		vy := that.PackedBool[i]
		if vx != vy {
			return false
		}
	}
	if len(this.PackedNestedEnum) != len(that.PackedNestedEnum) {
		return false
	}
	for i, vx := range this.PackedNestedEnum {
		vy := that.PackedNestedEnum[i]
		if vx != vy {
			return false
		}
	}
	if len(this.UnpackedInt32) != len(that.UnpackedInt32) {
		return false
	}
	for i, vx := range this.UnpackedInt32 {
		vy := that.UnpackedInt32[i]
		if vx != vy {
			return false
		}
	}
	if len(this.UnpackedInt64) != len(that.UnpackedInt64) {
		return false
	}
	for i, vx := range this.UnpackedInt64 {
		vy := that.UnpackedInt64[i]
		if vx != vy {
			return false
		}
	}
	if len(this.UnpackedUint32) != len(that.UnpackedUint32) {
		return false
	}
	for i, vx := range this.UnpackedUint32 {
		vy := that.UnpackedUint32[i]
		if vx != vy {
			return false
		}
	}
	if len(this.UnpackedUint64) != len(that.UnpackedUint64) {
		return false
	}
	for i, vx := range this.UnpackedUint64 {
		vy := that.UnpackedUint64[i]
		if vx != vy {
			return false
		}
	}
	if len(this.UnpackedSint32) != len(that.UnpackedSint32) {
		return false
	}
	for i, vx := range this.UnpackedSint32 {
		vy := that.UnpackedSint32[i]
		if vx != vy {
			return false
		}
	}
	if len(this.UnpackedSint64) != len(that.UnpackedSint64) {
		return false
	}
	for i, vx := range this.UnpackedSint64 {
		vy := that.UnpackedSint64[i]
		if vx != vy {
			return false
		}
	}
	if len(this.UnpackedFixed32) != len(that.UnpackedFixed32) {
		return false
	}
	for i, vx := range this.UnpackedFixed32 {
		vy := that.UnpackedFixed32[i]
		if vx != vy {
			return false
		}
	}
	if len(this.UnpackedFixed64) != len(that.UnpackedFixed64) {
		return false
	}
	for i, vx := range this.UnpackedFixed64 {
		vy := that.UnpackedFixed64[i]
		if vx != vy {
			return false
		}
	}
	if len(this.UnpackedSfixed32) != len(that.UnpackedSfixed32) {
".
Definition e_conformance3_3 : string :=
"		return false
	}
	for i, vx := range this.UnpackedSfixed32 {
		vy := that.UnpackedSfixed32[i]
		if vx != vy {
			return false
		}
	}
	if len(this.UnpackedSfixed64) != len(that.UnpackedSfixed64) {
		return false
	}
	for i, vx := range this.UnpackedSfixed64 {
		vy := that.UnpackedSfixed64[i]
		if vx != vy {
			return false
		}
	}
	if len(this.UnpackedFloat) != len(that.UnpackedFloat) {
		return false
	}
	for i, vx := range this.UnpackedFloat {
		vy := that.UnpackedFloat[i]
		if vx != vy {
			return false
		}
	}
	if len(this.UnpackedDouble) != len(that.UnpackedDouble) {
		return false
	}
	for i, vx := range this.UnpackedDouble {
		vy := that.UnpackedDouble[i]
		if vx != vy {
			return false
		}
	}
	if len(this.UnpackedBool) != len(that.UnpackedBool) {
		return false
	}
	for i, vx := range this.UnpackedBool {
		vy := that.UnpackedBool[i]
		if vx != vy {
			return false
		}
	}
	if len(this.UnpackedNestedEnum) != len(that.UnpackedNestedEnum) {
		return false
	}
	for i, vx := range this.UnpackedNestedEnum {
		vy := that.UnpackedNestedEnum[i]
		if vx != vy {
			return false
		}
	}
	if !(*wrapperspb1.BoolValue)(this.OptionalBoolWrapper).EqualVT((*wrapperspb1.BoolValue)(that.OptionalBoolWrapper)) {
		return false
	}
	if !(*wrapperspb1.Int32Value)(this.OptionalInt32Wrapper).EqualVT((*wrapperspb1.Int32Value)(that.OptionalInt32Wrapper)) {
		return false
	}
	if !(*wrapperspb1.Int64Value)(this.OptionalInt64Wrapper).EqualVT((*wrapperspb1.Int64Value)(that.OptionalInt64Wrapper)) {
		return false
	}
	if !(*wrapperspb1.UInt32Value)(this.OptionalUint32Wrapper).EqualVT((*wrapperspb1.UInt32Value)(that.OptionalUint32Wrapper)) {
		return false
	}
	if !(*wrapperspb1.UInt64Value)(this.OptionalUint64Wrapper).EqualVT((*wrapperspb1.UInt64Value)(that.OptionalUint64Wrapper)) {
		return false
	}
	if !(*wrapperspb1.FloatValue)(this.OptionalFloatWrapper).EqualVT((*wrapperspb1.FloatValue)(that.OptionalFloatWrapper)) {
		return false
	}
	if !(*wrapperspb1.DoubleValue)(this.OptionalDoubleWrapper).EqualVT((*wrapperspb1.DoubleValue)(that.OptionalDoubleWrapper)) {
		return false
	}
	if !(*wrapperspb1.StringValue)(this.OptionalStringWrapper).EqualVT((*wrapperspb1.StringValue)(that.OptionalStringWrapper)) {
		return false
	}
	if !(*wrapperspb1.BytesValue)(this.OptionalBytesWrapper).EqualVT((*wrapperspb1.BytesValue)(that.OptionalBytesWrapper)) {
		return false
	}
	if len(this.RepeatedBoolWrapper) != len(that.RepeatedBoolWrapper) {
		return false
	}
	for i, vx := range this.RepeatedBoolWrapper {
		vy := that.RepeatedBoolWrapper[i]
		if p, q := vx, vy; p != q {
			if p == nil {
				p = &wrapperspb.BoolValue{}
			}
			if q == nil {
				q = &wrapperspb.BoolValue{}
			}
			if !(*wrapperspb1.BoolValue)(p).EqualVT((*wrapperspb1.BoolValue)(q)) {
				return false
			}
		}
	}
	if len(this.RepeatedInt32Wrapper) != len(that.RepeatedInt32Wrapper) {
		return false
	}
	for i, vx := range this.RepeatedInt32Wrapper {
		vy := that.RepeatedInt32Wrapper[i]
		if p, q := vx, vy; p != q {
			if p == nil {
				p = &wrapperspb.Int32Value{}
			}
			if q == nil {
				q = &wrapperspb.Int32Value{}
			}
			if !(*wrapperspb1.Int32Value)(p).EqualVT((*wrapperspb1.Int32Value)(q)) {
				return false
			}
		}
	}
	if len(this.RepeatedInt64Wrapper) != len(that.RepeatedInt64Wrapper) {
		return false
	}
	for i, vx := range this.RepeatedInt64Wrapper {
		vy := that.RepeatedInt64Wrapper[i]
		if p, q := vx, vy; p != q {
			if p == nil {
				p = &wrapperspb.Int64Value{}
			}
			if q == nil {
				q = &wrapperspb.Int64Value{}
			}
			if !(*wrapperspb1.Int64Value)(p).EqualVT((*wrapperspb1.Int64Value)(q)) {
				return false
			}
		}
	}
	if len(this.RepeatedUint32Wrapper) != len(that.RepeatedUint32Wrapper) {
		return false
	}
	for i, vx := range this.RepeatedUint32Wrapper {
		vy := that.RepeatedUint32Wrapper[i]
		if p, q := vx, vy; p != q {
			if p == nil {
				p = &wrapperspb.UInt32Value{}
			}
			if q == nil {
				q = &wrapperspb.UInt32Value{}
			}
			if !(*wrapperspb1.UInt32Value)(p).EqualVT((*wrapperspb1.UInt32Value)(q)) {
				return false
			}
		}
	}
	if len(this.RepeatedUint64Wrapper) != len(that.RepeatedUint64Wrapper) {
		return false
	}
	for i, vx := range this.RepeatedUint64Wrapper {
		vy := that.RepeatedUint64Wrapper[i]
		if p, q := vx, vy; p != q {
			if p == nil {
				p = &wrapperspb.UInt64Value{}
			}
			if q == nil {
				q = &wrapperspb.UInt64Value{}
			}
			if !(*wrapperspb1.UInt64Value)(p).EqualVT((*wrapperspb1.UInt64Value)(q)) {
				return false
			}
		}
	}
	if len(this.RepeatedFloatWrapper) != len(that.RepeatedFloatWrapper) {
		return false
	}
	for i, vx := range this.RepeatedFloatWrapper {
		vy := that.RepeatedFloatWrapper[i]
		if p, q := vx, vy; p != q {
			if p == nil {
				p = &wrapperspb.FloatValue{}
			}
			if q == nil {
				q = &wrapperspb.FloatValue{}
			}
			if !(*wrapperspb1.FloatValue)(p).EqualVT((*wrapperspb1.FloatValue)(q)) {
				return false
			}
		}
	}
	if len(this.RepeatedDoubleWrapper) != len(that.RepeatedDoubleWrapper) {
		return false
	}
	for i, vx := range this.RepeatedDoubleWrapper {
		vy := that.RepeatedDoubleWrapper[i]
		if p, q := vx, vy; p != q {
			if p == nil {
				p = &wrapperspb.DoubleValue{}
			}
			if q == nil {
				q = &wrapperspb.DoubleValue{}
			}
			if !(*wrapperspb1.DoubleValue)(p).EqualVT((*wrapperspb1.DoubleValue)(q)) {
				return false
			}
		}
	}
	if len(this.RepeatedStringWrapper) != len(that.RepeatedStringWrapper) {
		return false
	}
	for i, vx := range this.RepeatedStringWrapper {
		vy := that.RepeatedStringWrapper[i]
		if p, q := vx, vy; p != q {
			if p == nil {
				p = &wrapperspb.StringValue{}
			}
			if q == nil {
				q = &wrapperspb.StringValue{}
			}
			if !(*wrapperspb1.StringValue)(p).EqualVT((*wrapperspb1.StringValue)(q)) {
				return false
			}
		}
	}
	if len(this.RepeatedBytesWrapper) != len(that.RepeatedBytesWrapper) {
		return false
	}
	for i, vx := range this.RepeatedBytesWrapper {
		vy := that.RepeatedBytesWrapper[i]
		if p, q := vx, vy; p != q {
			if p == nil {
				p = &wrapperspb.BytesValue{}
			}
			if q == nil {
				q = &wrapperspb.BytesValue{}
			}
			if !(*wrapperspb1.BytesValue)(p).EqualVT((*wrapperspb1.BytesValue)(q)) {
				return false
			}
		}
	}
	if !(*durationpb1.Duration)(this.OptionalDuration).EqualVT((*durationpb1.Duration)(that.OptionalDuration)) {
		return false
	}
	if !(*timestamppb1.Timestamp)(this.OptionalTimestamp).EqualVT((*timestamppb1.Timestamp)(that.OptionalTimestamp)) {
		return false
	}
	if !(*fieldmaskpb1.FieldMask)(this.OptionalFieldMask).EqualVT((*fieldmaskpb1.FieldMask)(that.OptionalFieldMask)) {
		return false
	}
	if !(*structpb1.Struct)(this.OptionalStruct).EqualVT((*structpb1.Struct)(that.OptionalStruct)) {
		return false
	}
	if !(*anypb1.Any)(this.OptionalAny).EqualVT((*anypb1.Any)(that.OptionalAny)) {
		return false
	}
	if !(*structpb1.Value)(this.OptionalValue).EqualVT((*structpb1.Value)(that.OptionalValue)) {
		return false
	}
	if this.OptionalNullValue != that.OptionalNullValue {
		return false
	}
	if len(this.RepeatedDuration) != len(that.RepeatedDuration) {
		return false
	}
	for i, vx := range this.RepeatedDuration {
		vy := that.RepeatedDuration[i]
		if p, q := vx, vy; p != q {
			if p == nil {
				p = &durationpb.Duration{}
			}
			if q == nil {
				q = &durationpb.Duration{}
			}
			if !(*durationpb1.Duration)(p).EqualVT((*durationpb1.Duration)(q)) {
				return false
			}
		}
	}
	if len(this.RepeatedTimestamp) != len(that.RepeatedTimestamp) {
		return false
	}
	for i, vx := range this.RepeatedTimestamp {
		vy := that.RepeatedTimestamp[i]
		if p, q := vx, vy; p != q {
			if p == nil {
				p = &timestamppb.Timestamp{}
			}
			if q == nil {
				q = &timestamppb.Timestamp{}
			}
			if !(*timestamppb1.Timestamp)(p).EqualVT((*timestamppb1.Timestamp)(q)) {
				return false
			}
		}
	}
	if len(this.RepeatedFieldmask) != len(that.RepeatedFieldmask) {
		return false
	}
	for i, vx := range this.RepeatedFieldmask {
		vy := that.RepeatedFieldmask[i]
		if p, q := vx, vy; p != q {
			if p == nil {
				p = &fieldmaskpb.FieldMask{}
".
Definition e_conformance3_4 : string :=
"			}
			if q == nil {
				q = &fieldmaskpb.FieldMask{}
			}
			if !(*fieldmaskpb1.FieldMask)(p).EqualVT((*fieldmaskpb1.FieldMask)(q)) {
				return false
			}
		}
	}
	if len(this.RepeatedAny) != len(that.RepeatedAny) {
		return false
	}
	for i, vx := range this.RepeatedAny {
		vy := that.RepeatedAny[i]
		if p, q := vx, vy; p != q {
			if p == nil {
				p = &anypb.Any{}
			}
			if q == nil {
				q = &anypb.Any{}
			}
			if !(*anypb1.Any)(p).EqualVT((*anypb1.Any)(q)) {
				return false
			}
		}
	}
	if len(this.RepeatedValue) != len(that.RepeatedValue) {
		return false
	}
	for i, vx := range this.RepeatedValue {
		vy := that.RepeatedValue[i]
		if p, q := vx, vy; p != q {
			if p == nil {
				p = &structpb.Value{}
			}
			if q == nil {
				q = &structpb.Value{}
			}
			if !(*structpb1.Value)(p).EqualVT((*structpb1.Value)(q)) {
				return false
			}
		}
	}
	if len(this.RepeatedListValue) != len(that.RepeatedListValue) {
		return false
	}
	for i, vx := range this.RepeatedListValue {
		vy := that.RepeatedListValue[i]
		if p, q := vx, vy; p != q {
			if p == nil {
				p = &structpb.ListValue{}
			}
			if q == nil {
				q = &structpb.ListValue{}
			}
			if !(*structpb1.ListValue)(p).EqualVT((*structpb1.ListValue)(q)) {
				return false
			}
		}
	}
	if len(this.RepeatedStruct) != len(that.RepeatedStruct) {
		return false
	}
	for i, vx := range this.RepeatedStruct {
		vy := that.RepeatedStruct[i]
		if p, q := vx, vy; p != q {
			if p == nil {
				p = &structpb.Struct{}
			}
			if q == nil {
				q = &structpb.Struct{}
			}
			if !(*structpb1.Struct)(p).EqualVT((*structpb1.Struct)(q)) {
				return false
			}
		}
	}
	if this.Fieldname1 != that.Fieldname1 {
		return false
	}
	if this.FieldName2 != that.FieldName2 {
		return false
	}
	if this.XFieldName3 != that.XFieldName3 {
		return false
	}
	if this.Field_Name4_ != that.Field_Name4_ {
		return false
	}
	if this.Field0Name5 != that.Field0Name5 {
		return false
	}
	if this.Field_0Name6 != that.Field_0Name6 {
		return false
	}
	if this.FieldName7 != that.FieldName7 {
		return false
	}
	if this.FieldName8 != that.FieldName8 {
		return false
	}
	if this.Field_Name9 != that.Field_Name9 {
		return false
	}
	if this.Field_Name10 != that.Field_Name10 {
		return false
	}
	if this.FIELD_NAME11 != that.FIELD_NAME11 {
		return false
	}
	if this.FIELDName12 != that.FIELDName12 {
		return false
	}
	if this.XFieldName13 != that.XFieldName13 {
		return false
	}
	if this.X_FieldName14 != that.X_FieldName14 {
		return false
	}
	if this.Field_Name15 != that.Field_Name15 {
		return false
	}
	if this.Field__Name16 != that.Field__Name16 {
		return false
	}
	if this.FieldName17__ != that.FieldName17__ {
		return false
	}
	if this.FieldName18__ != that.FieldName18__ {
		return false
	}
	return string(this.unknownFields) == string(that.unknownFields)
}
func (this *TestAllTypesProto3) EqualMessageVT(thatMsg proto.Message) bool {
	that, ok := thatMsg.(*TestAllTypesProto3)
	if !ok {
		return false
	}
	return this.EqualVT(that)
}
func (this *TestAllTypesProto3_OneofUint32) EqualVT(thatIface isTestAllTypesProto3_OneofField) bool {
	that, ok := thatIface.(*TestAllTypesProto3_OneofUint32)
	if !ok {
		return false
	}
	if this == that {
		return true
	}
	if this == nil && that != nil || this != nil && that == nil {
		return false
	}
	if this.OneofUint32 != that.OneofUint32 {
		return false
	}
	return true
}
func (this *TestAllTypesProto3_OneofNestedMessage) EqualVT(thatIface isTestAllTypesProto3_OneofField) bool {
	that, ok := thatIface.(*TestAllTypesProto3_OneofNestedMessage)
	if !ok {
		return false
	}
	if this == that {
		return true
	}
	if this == nil && that != nil || this != nil && that == nil {
		return false
	}
	if p, q := this.OneofNestedMessage, that.OneofNestedMessage; p != q {
		if p == nil {
			p = &TestAllTypesProto3_NestedMessage{}
		}
		if q == nil {
			q = &TestAllTypesProto3_NestedMessage{}
		}
		if !p.EqualVT(q) {
			return false
		}
	}
	return true
}
func (this *TestAllTypesProto3_OneofString) EqualVT(thatIface isTestAllTypesProto3_OneofField) bool {
	that, ok := thatIface.(*TestAllTypesProto3_OneofString)
	if !ok {
		return false
	}
	if this == that {
		return true
	}
	if this == nil && that != nil || this != nil && that == nil {
		return false
	}
	if this.OneofString != that.OneofString {
		return false
	}
	return true
}
func (this *TestAllTypesProto3_OneofBytes) EqualVT(thatIface isTestAllTypesProto3_OneofField) bool {
	that, ok := thatIface.(*TestAllTypesProto3_OneofBytes)
	if !ok {
		return false
	}
	if this == that {
		return true
	}
	if this == nil && that != nil || this != nil && that == nil {
		return false
	}
	if string(this.OneofBytes) != string(that.OneofBytes) {
		return false
	}
	return true
}
func (this *TestAllTypesProto3_OneofBool) EqualVT(thatIface isTestAllTypesProto3_OneofField) bool {
	that, ok := thatIface.(*TestAllTypesProto3_OneofBool)
	if !ok {
		return false
	}
	if this == that {
		return true
	}
	if this == nil && that != nil || this != nil && that == nil {
		return false
	}
	if this.OneofBool != that.OneofBool {
		return false
	}
	return true
}
func (this *TestAllTypesProto3_OneofUint64) EqualVT(thatIface isTestAllTypesProto3_OneofField) bool {
	that, ok := thatIface.(*TestAllTypesProto3_OneofUint64)
	if !ok {
		return false
	}
	if this == that {
		return true
	}
	if this == nil && that != nil || this != nil && that == nil {
		return false
	}
	if this.OneofUint64 != that.OneofUint64 {
		return false
	}
	return true
}
func (this *TestAllTypesProto3_OneofFloat) EqualVT(thatIface isTestAllTypesProto3_OneofField) bool {
	that, ok := thatIface.(*TestAllTypesProto3_OneofFloat)
	if !ok {
		return false
	}
	if this == that {
		return true
	}
	if this == nil && that != nil || this != nil && that == nil {
		return false
	}
	if this.OneofFloat != that.OneofFloat {
		return false
	}
	return true
}
func (this *TestAllTypesProto3_OneofDouble) EqualVT(thatIface isTestAllTypesProto3_OneofField) bool {
	that, ok := thatIface.(*TestAllTypesProto3_OneofDouble)
	if !ok {
		return false
	}
	if this == that {
		return true
	}
	if this == nil && that != nil || this != nil && that == nil {
		return false
	}
	if this.OneofDouble != that.OneofDouble {
		return false
	}
	return true
}
func (this *TestAllTypesProto3_OneofEnum) EqualVT(thatIface isTestAllTypesProto3_OneofField) bool {
	that, ok := thatIface.(*TestAllTypesProto3_OneofEnum)
	if !ok {
		return false
	}
	if this == that {
		return true
	}
	if this == nil && that != nil || this != nil && that == nil {
		return false
	}
	if this.OneofEnum != that.OneofEnum {
		return false
	}
	return true
}
func (this *TestAllTypesProto3_OneofNullValue) EqualVT(thatIface isTestAllTypesProto3_OneofField) bool {
	that, ok := thatIface.(*TestAllTypesProto3_OneofNullValue)
	if !ok {
		return false
	}
	if this == that {
		return true
	}
	if this == nil && that != nil || this != nil && that == nil {
		return false
	}
	if this.OneofNullValue != that.OneofNullValue {
		return false
	}
	return true
}
func (this *ForeignMessage) EqualVT(that *ForeignMessage) bool {
	if this == that {
		return true
	} else if this == nil || that == nil {
		return false
	}
	if this.C != that.C {
		return false
	}
	return string(this.unknownFields) == string(that.unknownFields)
}
func (this *ForeignMessage) EqualMessageVT(thatMsg proto.Message) bool {
	that, ok := thatMsg.(*ForeignMessage)
	if !ok {
		return false
	}
	return this.EqualVT(that)
}
func (this *NullHypothesisProto3) EqualVT(that *NullHypothesisProto3) bool {
	if this == that {
		return true
	} else if this == nil || that == nil {
		return false
	}
	return string(this.unknownFields) == string(that.unknownFields)
}
func (this *NullHypothesisProto3) EqualMessageVT(thatMsg proto.Message) bool {
	that, ok := thatMsg.(*NullHypothesisProto3)
	if !ok {
		return false
	}
	return this.EqualVT(that)
}
func (this *EnumOnlyProto3) EqualVT(that *EnumOnlyProto3) bool {
	if this == that {
		return true
	} else if this == nil || that == nil {
		return false
	}
".
Definition e_conformance3_5 : string :=
"	return string(this.unknownFields) == string(that.unknownFields)
}
func (this *EnumOnlyProto3) EqualMessageVT(thatMsg proto.Message) bool {
	that, ok := thatMsg.(*EnumOnlyProto3)
	if !ok {
		return false
	}
	return this.EqualVT(that)
}
".
Definition e_conformance3 : list string := [e_conformance3_1; e_conformance3_2; e_conformance3_3; e_conformance3_4; e_conformance3_5].

(** /repo/types/known/anypb/any_vtproto.pb.go *)
Definition e_any_1 : string :=
"func (this *Any) EqualVT(that *Any) bool {
	if this == that {
		return true
	} else if this == nil || that == nil {
		return false
	}
	if this.TypeUrl != that.TypeUrl {
		return false
	}
	if string(this.Value) != string(that.Value) {
		return false
	}
	return true
}
".
Definition e_any : list string := [e_any_1].

(** /repo/types/known/durationpb/duration_vtproto.pb.go *)
Definition e_duration_1 : string :=
"func (this *Duration) EqualVT(that *Duration) bool {
	if this == that {
		return true
	} else if this == nil || that == nil {
		return false
	}
	if this.Seconds != that.Seconds {
		return false
	}
	if this.Nanos != that.Nanos {
		return false
	}
	return true
}
".
Definition e_duration : list string := [e_duration_1].

(** /repo/types/known/emptypb/empty_vtproto.pb.go *)
Definition e_empty_1 : string :=
"func (this *Empty) EqualVT(that *Empty) bool {
	if this == that {
		return true
	} else if this == nil || that == nil {
		return false
	}
	return true
}
".
Definition e_empty : list string := [e_empty_1].

(** /repo/types/known/fieldmaskpb/field_mask_vtproto.pb.go *)
Definition e_field_mask_1 : string :=
"func (this *FieldMask) EqualVT(that *FieldMask) bool {
	if this == that {
		return true
	} else if this == nil || that == nil {
		return false
	}
	if len(this.Paths) != len(that.Paths) {
		return false
	}
	for i, vx := range this.Paths {
		vy := that.Paths[i]
		if vx != vy {
			return false
		}
	}
	return true
}
".
Definition e_field_mask : list string := [e_field_mask_1].

(** /repo/types/known/structpb/struct_vtproto.pb.go *)
Definition e_struct_1 : string :=
"func (this *Struct) EqualVT(that *Struct) bool {
	if this == that {
		return true
	} else if this == nil || that == nil {
		return false
	}
	if len(this.Fields) != len(that.Fields) {
		return false
	}
	for i, vx := range this.Fields {
		vy, ok := that.Fields[i]
		if !ok {
			return false
		}
		if p, q := vx, vy; p != q {
			if p == nil {
				p = &structpb.Value{}
			}
			if q == nil {
				q = &structpb.Value{}
			}
			if !(*Value)(p).EqualVT((*Value)(q)) {
				return false
			}
		}
	}
	return true
}
func (this *Value) EqualVT(that *Value) bool {
	if this == that {
		return true
	} else if this == nil || that == nil {
		return false
	}
	if this.Kind == nil && that.Kind != nil {
		return false
	} else if this.Kind != nil {
		if that.Kind == nil {
			return false
		}
		switch c := this.Kind.(type) {
		case *structpb.Value_NullValue:
			if !(*Value_NullValue)(c).EqualVT(that.Kind) {
				return false
			}
		case *structpb.Value_NumberValue:
			if !(*Value_NumberValue)(c).EqualVT(that.Kind) {
				return false
			}
		case *structpb.Value_StringValue:
			if !(*Value_StringValue)(c).EqualVT(that.Kind) {
				return false
			}
		case *structpb.Value_BoolValue:
			if !(*Value_BoolValue)(c).EqualVT(that.Kind) {
				return false
			}
		case *structpb.Value_StructValue:
			if !(*Value_StructValue)(c).EqualVT(that.Kind) {
				return false
			}
		case *structpb.Value_ListValue:
			if !(*Value_ListValue)(c).EqualVT(that.Kind) {
				return false
			}
		}
	}
	return true
}
func (this *Value_NullValue) EqualVT(thatIface any) bool {
	that, ok := thatIface.(*Value_NullValue)
	if !ok {
		if ot, ok := thatIface.(*structpb.Value_NullValue); ok {
			that = (*Value_NullValue)(ot)
		} else {
			return false
		}
	}
	if this == that {
		return true
	}
	if this == nil && that != nil || this != nil && that == nil {
		return false
	}
	if this.NullValue != that.NullValue {
		return false
	}
	return true
}
func (this *Value_NumberValue) EqualVT(thatIface any) bool {
	that, ok := thatIface.(*Value_NumberValue)
	if !ok {
		if ot, ok := thatIface.(*structpb.Value_NumberValue); ok {
			that = (*Value_NumberValue)(ot)
		} else {
			return false
		}
	}
	if this == that {
		return true
	}
	if this == nil && that != nil || this != nil && that == nil {
		return false
	}
	if this.NumberValue != that.NumberValue {
		return false
	}
	return true
}
func (this *Value_StringValue) EqualVT(thatIface any) bool {
	that, ok := thatIface.(*Value_StringValue)
	if !ok {
		if ot, ok := thatIface.(*structpb.Value_StringValue); ok {
			that = (*Value_StringValue)(ot)
		} else {
			return false
		}
	}
	if this == that {
		return true
	}
	if this == nil && that != nil || this != nil && that == nil {
		return false
	}
	if this.StringValue != that.StringValue {
		return false
	}
	return true
}
func (this *Value_BoolValue) EqualVT(thatIface any) bool {
	that, ok := thatIface.(*Value_BoolValue)
	if !ok {
		if ot, ok := thatIface.(*structpb.Value_BoolValue); ok {
			that = (*Value_BoolValue)(ot)
		} else {
			return false
		}
	}
	if this == that {
		return true
	}
	if this == nil && that != nil || this != nil && that == nil {
		return false
	}
	if this.BoolValue != that.BoolValue {
		return false
	}
	return true
}
func (this *Value_StructValue) EqualVT(thatIface any) bool {
	that, ok := thatIface.(*Value_StructValue)
	if !ok {
		if ot, ok := thatIface.(*structpb.Value_StructValue); ok {
			that = (*Value_StructValue)(ot)
		} else {
			return false
		}
	}
	if this == that {
		return true
	}
	if this == nil && that != nil || this != nil && that == nil {
		return false
	}
	if p, q := this.StructValue, that.StructValue; p != q {
		if p == nil {
			p = &structpb.Struct{}
		}
		if q == nil {
			q = &structpb.Struct{}
		}
		if !(*Struct)(p).EqualVT((*Struct)(q)) {
			return false
		}
	}
	return true
}
func (this *Value_ListValue) EqualVT(thatIface any) bool {
	that, ok := thatIface.(*Value_ListValue)
	if !ok {
		if ot, ok := thatIface.(*structpb.Value_ListValue); ok {
			that = (*Value_ListValue)(ot)
		} else {
			return false
		}
	}
	if this == that {
		return true
	}
	if this == nil && that != nil || this != nil && that == nil {
		return false
	}
	if p, q := this.ListValue, that.ListValue; p != q {
		if p == nil {
			p = &structpb.ListValue{}
		}
		if q == nil {
			q = &structpb.ListValue{}
		}
		if !(*ListValue)(p).EqualVT((*ListValue)(q)) {
			return false
		}
	}
	return true
}
func (this *ListValue) EqualVT(that *ListValue) bool {
	if this == that {
		return true
	} else if this == nil || that == nil {
		return false
	}
	if len(this.Values) != len(that.Values) {
		return false
	}
	for i, vx := range this.Values {
		vy := that.Values[i]
		if p, q := vx, vy; p != q {
			if p == nil {
				p = &structpb.Value{}
			}
			if q == nil {
				q = &structpb.Value{}
			}
			if !(*Value)(p).EqualVT((*Value)(q)) {
				return false
			}
		}
	}
	return true
}
".
Definition e_struct : list string := [e_struct_1].

(** /repo/types/known/timestamppb/timestamp_vtproto.pb.go *)
Definition e_timestamp_1 : string :=
"func (this *Timestamp) EqualVT(that *Timestamp) bool {
	if this == that {
		return true
	} else if this == nil || that == nil {
		return false
	}
	if this.Seconds != that.Seconds {
		return false
	}
	if this.Nanos != that.Nanos {
		return false
	}
	return true
}
".
Definition e_timestamp : list string := [e_timestamp_1].

(** /repo/types/known/wrapperspb/wrappers_vtproto.pb.go *)
Definition e_wrappers_1 : string :=
"func (this *DoubleValue) EqualVT(that *DoubleValue) bool {
	if this == that {
		return true
	} else if this == nil || that == nil {
		return false
	}
	if this.Value != that.Value {
		return false
	}
	return true
}
func (this *FloatValue) EqualVT(that *FloatValue) bool {
	if this == that {
		return true
	} else if this == nil || that == nil {
		return false
	}
	if this.Value != that.Value {
		return false
	}
	return true
}
func (this *Int64Value) EqualVT(that *Int64Value) bool {
	if this == that {
		return true
	} else if this == nil || that == nil {
		return false
	}
	if this.Value != that.Value {
		return false
	}
	return true
}
func (this *UInt64Value) EqualVT(that *UInt64Value) bool {
	if this == that {
		return true
	} else if this == nil || that == nil {
		return false
	}
	if this.Value != that.Value {
		return false
	}
	return true
}
func (this *Int32Value) EqualVT(that *Int32Value) bool {
	if this == that {
		return true
	} else if this == nil || that == nil {
		return false
	}
	if this.Value != that.Value {
		return false
	}
	return true
}
func (this *UInt32Value) EqualVT(that *UInt32Value) bool {
	if this == that {
		return true
	} else if this == nil || that == nil {
		return false
	}
	if this.Value != that.Value {
		return false
	}
	return true
}
func (this *BoolValue) EqualVT(that *BoolValue) bool {
	if this == that {
		return true
	} else if this == nil || that == nil {
		return false
	}
	if this.Value != that.Value {
		return false
	}
	return true
}
func (this *StringValue) EqualVT(that *StringValue) bool {
	if this == that {
		return true
	} else if this == nil || that == nil {
		return false
	}
	if this.Value != that.Value {
		return false
	}
	return true
}
func (this *BytesValue) EqualVT(that *BytesValue) bool {
	if this == that {
		return true
	} else if this == nil || that == nil {
		return false
	}
	if string(this.Value) != string(that.Value) {
		return false
	}
	return true
}
".
Definition e_wrappers : list string := [e_wrappers_1].

