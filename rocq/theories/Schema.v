(** Descriptors: what the generator reads from protobuf-go's protogen /
    protoreflect about a message type, restricted to what it uses. *)
From Coq Require Import ZArith List Bool.
From Verif Require Import Base.
Import ListNotations.
Open Scope Z_scope.

(** protoreflect.Kind, in the order of the case labels of
    /repo/features/unmarshal/unmarshal.go:292-713.  A message or group kind
    carries the index of its message descriptor in the schema. *)
Inductive kind : Type :=
| KDouble | KFloat | KInt64 | KUint64 | KInt32 | KFixed64 | KFixed32 | KBool
| KString | KGroup (m : nat) | KMessage (m : nat) | KBytes | KUint32 | KEnum
| KSfixed32 | KSfixed64 | KSint32 | KSint64.

(** What the generator derives from Cardinality(), HasPresence(), IsPacked(),
    Oneof and the file syntax of a field that is not a map:
    - [LImplicit]: proto3 singular field without presence
      (unmarshal.go:301 [proto3 && !nullable], marshalto.go:117 [!nullable && !oneof]);
    - [LOptional]: singular field with presence outside a real oneof (proto2
      optional, proto3 optional i.e. synthetic oneof, or a singular message);
    - [LRequired]: proto2 required;
    - [LRepeated packed]: a list, [packed] is IsPacked();
    - [LOneof]: member of a non-synthetic oneof. *)
Inductive label : Type :=
| LImplicit | LOptional | LRequired | LRepeated (packed : bool) | LOneof.

(** A field is a plain field or a map (field.Desc.IsMap(); its key and value
    fields are field.Message.Fields[0] and [1]). *)
Inductive ftype : Type :=
| TField (l : label) (k : kind)
| TMap (kk vk : kind).

(** protogen.Field: number, type, and the struct member holding it.  All members
    of one oneof share the member of the oneof interface (field.Oneof.GoName,
    size.go:304, marshalto.go:650, unmarshal.go:719-721); every other field has
    its own member (field.GoName). *)
Record fdesc : Type := mkF { f_num : Z; f_slot : nat; f_ty : ftype }.

(** protogen.Message.
    - [md_fields]: message.Fields, in declaration order;
    - [md_nslots]: number of struct members;
    - [md_keep]: [!p.Wrapper() && !p.ShouldIgnoreUnknownFields(message)]
      (marshalto.go:602, size.go:323, unmarshal.go:859, equal.go:116, clone.go:223);
    - [md_ext]: ExtensionRanges() (unmarshal.go:844-851), half-open;
    - [md_pool]: p.ShouldPool(message) (generatedfile.go:27-42);
    - [md_foreign]: the Go type has no vtproto helpers, so the dynamic interface
      checks fail and the google.golang.org/protobuf fall-back is taken
      (size.go:50-57, marshalto.go:730-746, unmarshal.go:68-79, equal.go:284-291,
      clone.go:80-87).  Well-known types and local messages are not foreign. *)
Record mdesc : Type := mkM {
  md_fields : list fdesc;
  md_nslots : nat;
  md_keep : bool;
  md_ext : list (Z * Z);
  md_pool : bool;
  md_foreign : bool }.

(** The Go message type with no fields; used for out-of-range indices only. *)
Definition md_default : mdesc := mkM [] 0 true [] false false.

(** /repo/generator/helpers.go:24-47, wireTypes and ProtoWireType. *)
Definition ProtoWireType (k : kind) : Z :=
  match k with
  | KBool | KEnum | KInt32 | KSint32 | KUint32 | KInt64 | KSint64 | KUint64 => 0
  | KSfixed32 | KFixed32 | KFloat => 5
  | KSfixed64 | KFixed64 | KDouble => 1
  | KString | KBytes | KMessage _ => 2
  | KGroup _ => 3
  end.

(** The groups of case labels the generators switch on
    (size.go:78-264, marshalto.go:137-518): *)
Inductive kclass : Type :=
| CFix64   (* Double, Fixed64, Sfixed64 *)
| CFix32   (* Float, Fixed32, Sfixed32 *)
| CVar     (* Int64, Uint64, Uint32, Enum, Int32 *)
| CBool
| CZig     (* Sint32, Sint64 *)
| CStr | CByt
| CMsg (m : nat) | CGrp (m : nat).

(** The case-label grouping used in size.go:78,90,102,122,134,152,155,230,245. *)
Definition classify (k : kind) : kclass :=
  match k with
  | KDouble | KFixed64 | KSfixed64 => CFix64
  | KFloat | KFixed32 | KSfixed32 => CFix32
  | KInt64 | KUint64 | KUint32 | KEnum | KInt32 => CVar
  | KBool => CBool
  | KSint32 | KSint64 => CZig
  | KString => CStr
  | KBytes => CByt
  | KMessage m => CMsg m
  | KGroup m => CGrp m
  end.

(** [field.Desc.Kind()] of any field: a map field has MessageKind, so its wire
    type is bytes. *)
Definition field_wt (t : ftype) : Z :=
  match t with TField _ k => ProtoWireType k | TMap _ _ => 2 end.

(** [field.Oneof != nil && !field.Oneof.Desc.IsSynthetic()]
    (size.go:300, marshalto.go:627,648,674, unmarshal.go:289,719, equal.go:72,109,135,
    clone.go:104,189). *)
Definition is_oneof (f : fdesc) : bool :=
  match f_ty f with TField LOneof _ => true | _ => false end.

(** [field.Desc.Cardinality() == protoreflect.Required]
    (marshalto.go:122, unmarshal.go:783,870). *)
Definition is_required (f : fdesc) : bool :=
  match f_ty f with TField LRequired _ => true | _ => false end.

(** [sort.Slice(message.Fields, by Number())] (marshalto.go:609-611,
    equal.go:65-67); numbers are distinct so the order is determined. *)
Fixpoint insert_field (f : fdesc) (l : list fdesc) : list fdesc :=
  match l with
  | [] => [f]
  | g :: l' => if f_num f <=? f_num g then f :: l else g :: insert_field f l'
  end.
Definition sort_fields (l : list fdesc) : list fdesc := fold_right insert_field [] l.

(** Field lookup by number: the [switch fieldNum] of unmarshal.go:828-831 and the
    dynamic type of a oneof wrapper. *)
Definition find_field (num : Z) (l : list fdesc) : option fdesc :=
  find (fun f => f_num f =? num) l.

(** The representative fields of the oneofs: the generators walk the fields in
    the order [l] and keep the first field of every oneof (size.go:298-308,
    marshalto.go:645-654, equal.go:70-81, clone.go:186-197).  Returns the struct
    members of the oneofs in the order met. *)
Fixpoint oneof_slots (seen : list nat) (l : list fdesc) : list nat :=
  match l with
  | [] => []
  | f :: l' =>
      if is_oneof f then
        if existsb (Nat.eqb (f_slot f)) seen then oneof_slots seen l'
        else f_slot f :: oneof_slots (f_slot f :: seen) l'
      else oneof_slots seen l'
  end.
