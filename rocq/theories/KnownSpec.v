(** What the helpers of /repo/types/known are compared with (PropsKnown.v): the messages of
    google/protobuf/*.proto as descriptors, how the structs of KnownTypes.v are represented as
    values of the model of the generator, and agreement of the two. *)
From Coq Require Import ZArith List Bool.
From Verif Require Import Base Schema Value Helpers Size Marshal Unmarshal Equal Clone RecordSpec KnownTypes.
Import ListNotations.
Open Scope Z_scope.

(** A message generated without pool whose type is known upstream and local to no file: no
    unknown fields are kept (/repo/types/known/*_vtproto.pb.go have no unknownFields), no
    extensions, no pool, helpers of vtprotobuf. *)
Definition known_desc (fs : list fdesc) (nslots : nat) : mdesc := mkM fs nslots false [] false false.
(** A proto3 field without presence. *)
Definition plain (num : Z) (slot : nat) (k : kind) : fdesc := mkF num slot (TField LImplicit k).

(** google/protobuf/timestamp.proto, duration.proto (timestamp_vtproto.pb.go:3). *)
Definition Timestamp_desc : mdesc := known_desc [plain 1 0 KInt64; plain 2 1 KInt32] 2.
(** google/protobuf/empty.proto (empty_vtproto.pb.go:3). *)
Definition Empty_desc : mdesc := known_desc [] 0.
(** google/protobuf/any.proto (any_vtproto.pb.go:3). *)
Definition Any_desc : mdesc := known_desc [plain 1 0 KString; plain 2 1 KBytes] 2.
(** google/protobuf/field_mask.proto (field_mask_vtproto.pb.go:3). *)
Definition FieldMask_desc : mdesc := known_desc [mkF 1 0 (TField (LRepeated false) KString)] 1.
(** google/protobuf/wrappers.proto (wrappers_vtproto.pb.go:3). *)
Definition wrapper_desc (k : kind) : mdesc := known_desc [plain 1 0 k] 1.
(** google/protobuf/struct.proto (struct_vtproto.pb.go:3); [s], [v], [l] are the numbers of
    Struct, Value and ListValue in the schema. *)
Definition Struct_desc (v : nat) : mdesc := known_desc [mkF 1 0 (TMap KString (KMessage v))] 1.
Definition Value_desc (s l : nat) : mdesc :=
  known_desc [mkF 1 0 (TField LOneof KEnum); mkF 2 0 (TField LOneof KDouble); mkF 3 0 (TField LOneof KString);
              mkF 4 0 (TField LOneof KBool); mkF 5 0 (TField LOneof (KMessage s)); mkF 6 0 (TField LOneof (KMessage l))] 1.
Definition ListValue_desc (v : nat) : mdesc := known_desc [mkF 1 0 (TField (LRepeated false) (KMessage v))] 1.

(** A struct pointer as a value: nil, or the members. *)
Definition ptr_val {T} (members : T -> list val) (m : option T) : val :=
  match m with None => VNil | Some m => VMsg (members m) [] [] end.
(** A byte slice. *)
Definition bytes_val (b : option (list Z)) : val := match b with None => VNil | Some s => VBytes s end.
(** A list of strings. *)
Definition strings_val (l : option (list (list Z))) : val := match l with None => VNil | Some l => VList (map VStr l) end.
(** The structs. *)
Definition Timestamp_val : option Timestamp -> val := ptr_val (fun m => [VInt (Seconds m); VInt (Nanos m)]).
Definition Empty_val : option Empty -> val := ptr_val (fun m => []).
Definition Any_val : option Any -> val := ptr_val (fun m => [VStr (TypeUrl m); bytes_val (AnyValue m)]).
Definition FieldMask_val : option FieldMask -> val := ptr_val (fun m => [strings_val (Paths m)]).
Definition NumberValue_val : option NumberValue -> val := ptr_val (fun m => [VInt (number m)]).
Definition BoolValue_val : option BoolValue -> val := ptr_val (fun m => [VInt (if boolean m then 1 else 0)]).
Definition StringValue_val : option StringValue -> val := ptr_val (fun m => [VStr (string m)]).
Definition BytesValue_val : option BytesValue -> val := ptr_val (fun m => [bytes_val (bytes m)]).

(** The outcome of UnmarshalVT on structs as an outcome on values. *)
Definition res_val {P} (to_val : P -> val) (r : res P P) : res val val :=
  match r with
  | Ok m => Ok (to_val m)
  | Err e m => Err e (to_val m)
  | Panic => Panic
  | NoFuel => NoFuel
  end.

(** The helpers [h] do on structs what the generator's code for message [t] of [sc] does: every
    result, every byte written, every state left behind, every panic. *)
Record agrees {P} (sc : schema) (t : nat) (to_val : P -> val) (h : helpers P) : Prop := {
  agree_size : forall m, SizeVT_ h m = SizeVT sc t (to_val m);
  agree_sized : forall strict m buf,
    MarshalToSizedBufferVT_ h strict m buf = MarshalToSizedBufferVT sc strict t (to_val m) buf;
  agree_marshal : forall strict m, MarshalVT_ h strict m = MarshalVT sc strict t (to_val m);
  agree_marshalto : forall strict m arr, MarshalToVT_ h strict m arr = MarshalToVT sc strict t (to_val m) arr;
  agree_unmarshal : forall data m, small data ->
    res_val to_val (UnmarshalVT_ h data m) = UnmarshalVT sc t data (to_val m);
  agree_equal : forall o a b, EqualVT_ h o a b = EqualVT sc o t (to_val a) (to_val b);
  agree_clone : forall m, to_val (CloneVT_ h m) = CloneVT sc t (to_val m) }.

(** * Which structs a Go program can build *)
Definition int64 (z : Z) : Prop := -9223372036854775808 <= z < 9223372036854775808.
Definition int32 (z : Z) : Prop := -2147483648 <= z < 2147483648.
Definition uint64 (z : Z) : Prop := 0 <= z < 18446744073709551616.
Definition uint32 (z : Z) : Prop := 0 <= z < 4294967296.
Definition octets (s : list Z) : Prop := Forall (fun b => 0 <= b < 256) s.
(** A non-nil pointer to a struct whose members are of their Go types. *)
Definition sound_ptr {T} (members : T -> Prop) (m : option T) : Prop :=
  match m with Some m => members m | None => False end.
Definition Timestamp_sound : option Timestamp -> Prop := sound_ptr (fun m => int64 (Seconds m) /\ int32 (Nanos m)).
Definition Empty_sound : option Empty -> Prop := sound_ptr (fun m => True).
Definition Any_sound : option Any -> Prop := sound_ptr (fun m => octets (TypeUrl m) /\ octets (elems (AnyValue m))).
Definition FieldMask_sound : option FieldMask -> Prop := sound_ptr (fun m => Forall octets (elems (Paths m))).
Definition NumberValue_sound (range : Z -> Prop) : option NumberValue -> Prop := sound_ptr (fun m => range (number m)).
Definition BoolValue_sound : option BoolValue -> Prop := sound_ptr (fun m => True).
Definition StringValue_sound : option StringValue -> Prop := sound_ptr (fun m => octets (string m)).
Definition BytesValue_sound : option BytesValue -> Prop := sound_ptr (fun m => octets (elems (bytes m))).

(** Everything reachable from a Value is of its Go type, the keys of a map are distinct, and the
    numbers meet [N] (bits of a float64). *)
Section Reach.
Variable N : Z -> Prop.
Fixpoint Value_all (v : KnownTypes.Value) : Prop :=
  match v with
  | Value_nil => True
  | Value_new k => Kind_all k
  end
with Kind_all (k : ValueKind) : Prop :=
  match k with
  | Kind_nil | Value_BoolValue _ => True
  | Value_NullValue z => int32 z
  | Value_NumberValue z => N z
  | Value_StringValue s => octets s
  | Value_StructValue s => Struct_all s
  | Value_ListValue l => ListValue_all l
  end
with Struct_all (s : Struct) : Prop :=
  match s with
  | Struct_nil | Struct_new None => True
  | Struct_new (Some l) =>
      NoDup (map fst l) /\ fold_right (fun e rest => octets (fst e) /\ Value_all (snd e) /\ rest) True l
  end
with ListValue_all (l : ListValue) : Prop :=
  match l with
  | ListValue_nil | ListValue_new None => True
  | ListValue_new (Some l) => fold_right (fun e rest => Value_all e /\ rest) True l
  end.
End Reach.
Definition Value_sound (N : Z -> Prop) (v : KnownTypes.Value) : Prop := v <> Value_nil /\ Value_all N v.
Definition Struct_sound (N : Z -> Prop) (s : Struct) : Prop := s <> Struct_nil /\ Struct_all N s.
Definition ListValue_sound (N : Z -> Prop) (l : ListValue) : Prop := l <> ListValue_nil /\ ListValue_all N l.
(** A wrapper around a nil message. *)
Definition nil_member (v : KnownTypes.Value) : Prop :=
  v = Value_new (Value_StructValue Struct_nil) \/ v = Value_new (Value_ListValue ListValue_nil).

(** NaN among the bits of a float64 and of a float32. *)
Definition nan64 (z : Z) : Prop := (z / 2 ^ 52) mod 2 ^ 11 = 2 ^ 11 - 1 /\ z mod 2 ^ 52 <> 0.
Definition nan32 (z : Z) : Prop := (z / 2 ^ 23) mod 2 ^ 8 = 2 ^ 8 - 1 /\ z mod 2 ^ 23 <> 0.

(** What a user relies on, for the structs that are [sound]: marshalling succeeds, SizeVT is the
    number of bytes, the bytes decode to a struct that EqualVT finds equal (if no number is NaN:
    [regular]), decoding any bytes into an acceptable receiver returns a result or an error, and a
    clone has the same content. *)
Record dependable {P} (sound regular receiver : P -> Prop) (new : P) (h : helpers P) : Prop := {
  dep_marshal : forall strict m, sound m ->
    exists bs, MarshalVT_ h strict m = Ok (Some bs) /\ zlen bs = SizeVT_ h m /\
      (small bs -> exists m', UnmarshalVT_ h bs new = Ok m' /\ (regular m -> forall o, EqualVT_ h o m m' = true));
  dep_total : forall data m, octets data -> small data -> sound m -> receiver m ->
    (exists m', UnmarshalVT_ h data m = Ok m') \/ (exists e m', UnmarshalVT_ h data m = Err e m');
  dep_clone : forall m, CloneVT_ h m = m }.
