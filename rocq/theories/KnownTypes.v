(** Model of /repo/types/known/: the helpers vtprotobuf ships for the well-known types.
    Unlike Size.v ... Equal.v, which model what the generator emits for a descriptor, this
    file transcribes the emitted Go functions of these files one by one; PropsKnown.v proves
    that they are what the model of the generator says.

    A pointer to a message is an [option] (None: nil); a byte slice that can be nil and a
    list that can be nil are options of lists too.  A float64/float32 is its bit pattern.
    The unchanged parts of every function are the definitions of the first section. *)
From Coq Require Import ZArith List Bool.
From Verif Require Import Base Schema Value Helpers Size Marshal Unmarshal Equal.
Import ListNotations.
Open Scope Z_scope.

(** * Parts common to all messages *)
Section Parts.
Context {M : Type}.
(** The head of the loop of UnmarshalVT (timestamppb/timestamp_vtproto.pb.go:147-169):
    read the tag, return fieldNum, wireType and iNdEx. *)
Definition read_tag (dAtA : list Z) (iNdEx : Z) (m : M) : res M (Z * Z * Z) :=
  do r <- lift m (decodeVarint u64 0 dAtA iNdEx);
  let (wire, iNdEx) := r in
  let fieldNum := s32 (Z.shiftr wire 3) in
  let wireType := Z.land wire 7 in
  if wireType =? 4 then Err EWireType m else
  if fieldNum <=? 0 then Err EIllegalTag m else
  Ok (fieldNum, wireType, iNdEx).
(** The default case (timestamp_vtproto.pb.go:210-221). *)
Definition skip_field (dAtA : list Z) (preIndex : Z) (m : M) : res M (M * Z) :=
  let iNdEx := preIndex in
  do rest <- orpanic (zslice dAtA iNdEx (zlen dAtA));
  do skippy <- lift m (Skip rest);
  if (skippy <? 0) || (s64 (iNdEx + skippy) <? 0) then Err EInvalidLength m else
  if zlen dAtA <? s64 (iNdEx + skippy) then Err EUnexpectedEOF m else
  Ok (m, s64 (iNdEx + skippy)).
(** The loop [for iNdEx < l] (timestamp_vtproto.pb.go:145-223); [step] is its body. *)
Fixpoint loop (step : M -> Z -> res M (M * Z)) (fuel : nat) (dAtA : list Z) (iNdEx : Z) (m : M)
  : res M (M * Z) :=
  match fuel with
  | O => NoFuel
  | S fuel' =>
      if iNdEx <? zlen dAtA then
        do r <- step m iNdEx;
        loop step fuel' dAtA (snd r) (fst r)
      else Ok (m, iNdEx)
  end.
(** UnmarshalVT around the body of its loop (timestamp_vtproto.pb.go:143-146, 225-228). *)
Definition unmarshal (step : M -> Z -> res M (M * Z)) (dAtA : list Z) (m : M) : res M M :=
  do r <- loop step (S (length dAtA)) dAtA 0 m;
  if zlen dAtA <? snd r then Err EUnexpectedEOF (fst r) else Ok (fst r).
(** The varint loop on a struct member (timestamp_vtproto.pb.go:176-189): [get] and [set]
    read and write the member, [w] converts to its type. *)
Fixpoint varint_into (fuel : nat) (w : Z -> Z) (get : M -> Z) (set : Z -> M -> M)
  (dAtA : list Z) (iNdEx shift : Z) (m : M) : res M (M * Z) :=
  match fuel with
  | O => NoFuel
  | S fuel' =>
      if 64 <=? shift then Err EIntOverflow m else
      if zlen dAtA <=? iNdEx then Err EUnexpectedEOF m else
      do b <- orpanic (zget dAtA iNdEx);
      let m := set (Z.lor (get m) (w (Z.shiftl (Z.land b 127) shift))) m in
      if b <? 128 then Ok (m, iNdEx + 1)
      else varint_into fuel' w get set dAtA (iNdEx + 1) (shift + 7) m
  end.
End Parts.

(** Run code that needs a non-nil receiver; a nil one panics. *)
Definition on {T A} (m : option T) (body : T -> res T (T * A)) : res (option T) (option T * A) :=
  match m with
  | None => Panic
  | Some t =>
      match body t with
      | Ok (t, a) => Ok (Some t, a)
      | Err e t => Err e (Some t)
      | Panic => Panic
      | NoFuel => NoFuel
      end
  end.
(** [m.F = x] where [m] may be nil. *)
Definition assign {T} (m : option T) (set : T -> T) : res (option T) (option T) :=
  match m with Some t => Ok (Some (set t)) | None => Panic end.

(** MarshalVT and MarshalVTStrict (timestamp_vtproto.pb.go:49-60, 88-99) around SizeVT and
    MarshalToSizedBufferVT. *)
Definition marshal {M} (nil : bool) (m : M) (sizeVT : M -> Z) (toSized : M -> list Z -> res unit (list Z * Z))
  : res unit (option (list Z)) :=
  if nil then Ok None else
  let size := sizeVT m in
  let dAtA := repeat 0 (Z.to_nat size) in
  do r <- toSized m dAtA;
  do out <- orpanic (zslice (fst r) 0 (snd r));
  Ok (Some out).
(** MarshalToVT and MarshalToVTStrict (timestamp_vtproto.pb.go:62-65, 101-104); [arr] is the
    array behind dAtA up to its capacity. *)
Definition marshal_to {M} (m : M) (sizeVT : M -> Z) (toSized : M -> list Z -> res unit (list Z * Z)) (arr : list Z)
  : res unit (list Z * Z) :=
  let size := sizeVT m in
  do pre <- orpanic (zslice arr 0 size);
  do r <- toSized m pre;
  Ok (fst r ++ skipn (Z.to_nat size) arr, snd r).
(** [i = protohelpers.EncodeVarint(dAtA, i, uint64(len(s)))] after [i -= len(s); copy(dAtA[i:], s)]. *)
Definition put_counted (s : list Z) (st : mst) : mres :=
  do st <- put_bytes s st; encodeVarint (zlen s) st.
(** MarshalToSizedBufferVT after its statements: [return len(dAtA) - i, nil]. *)
Definition written (dAtA : list Z) (r : mres) : res unit (list Z * Z) :=
  do st <- r; Ok (fst st, zlen dAtA - snd st).

(** The helpers of one message, for a type [P] of pointers to it; the boolean chooses
    between MarshalVT... and MarshalVT...Strict. *)
Record helpers (P : Type) : Type := mkHelpers {
  SizeVT_ : P -> Z;
  MarshalToSizedBufferVT_ : bool -> P -> list Z -> res unit (list Z * Z);
  MarshalVT_ : bool -> P -> res unit (option (list Z));
  MarshalToVT_ : bool -> P -> list Z -> res unit (list Z * Z);
  UnmarshalVT_ : list Z -> P -> res P P;
  EqualVT_ : (list step -> bool) -> P -> P -> bool;
  CloneVT_ : P -> P }.
Arguments mkHelpers {P}.
Arguments SizeVT_ {P}. Arguments MarshalToSizedBufferVT_ {P}.
Arguments MarshalVT_ {P}. Arguments MarshalToVT_ {P}. Arguments UnmarshalVT_ {P}. Arguments EqualVT_ {P}. Arguments CloneVT_ {P}.

(** The methods of a message without sub-messages: MarshalVT, MarshalToVT, their strict
    variants and UnmarshalVT around the given ones (timestamp_vtproto.pb.go:49-65, 88-104, 142-229). *)
Definition flat_helpers {T} (sizeVT : option T -> Z) (toSized : option T -> list Z -> res unit (list Z * Z))
  (step : list Z -> option T -> Z -> res (option T) (option T * Z))
  (equalVT : bool -> option T -> option T -> bool) (cloneVT : option T -> option T) : helpers (option T) :=
  mkHelpers sizeVT (fun _ => toSized)
    (fun _ m => marshal (match m with None => true | Some _ => false end) m sizeVT toSized)
    (fun _ m => marshal_to m sizeVT toSized)
    (fun dAtA m => unmarshal (step dAtA) dAtA m)
    (fun o => equalVT (o [])) cloneVT.

(** [this == that] on pointers: only pointers to the same object are equal, and then its
    content is ([same]: whether the contents are); [o] decides. *)
Definition same_ptr {T} (o : bool) (same : T -> T -> bool) (a b : option T) : bool :=
  match a, b with
  | None, None => true
  | Some x, Some y => o && same x y
  | _, _ => false
  end.
(** The start of EqualVT (timestamp_vtproto.pb.go:35-39). *)
Definition equal {T} (o : bool) (same rest : T -> T -> bool) (a b : option T) : bool :=
  if same_ptr o same a b then true else
  match a, b with
  | Some x, Some y => rest x y
  | _, _ => false
  end.

(** * timestamppb/timestamp_vtproto.pb.go and durationpb/duration_vtproto.pb.go *)
(** timestamppb.Timestamp (and durationpb.Duration, the same struct). *)
Record Timestamp : Type := mkTimestamp { Seconds : Z; Nanos : Z }.
(** The members of [Timestamp] as places. *)
Definition set_Seconds (z : Z) (m : Timestamp) : Timestamp := mkTimestamp z (Nanos m).
Definition set_Nanos (z : Z) (m : Timestamp) : Timestamp := mkTimestamp (Seconds m) z.

(** timestamp_vtproto.pb.go:127-140 SizeVT. *)
Definition Timestamp_SizeVT (m : option Timestamp) : Z :=
  match m with
  | None => 0
  | Some m =>
      let n := 0 in
      let n := if negb (Seconds m =? 0) then n + (1 + SizeOfVarint (u64 (Seconds m))) else n in
      let n := if negb (Nanos m =? 0) then n + (1 + SizeOfVarint (u64 (Nanos m))) else n in
      n
  end.
(** timestamp_vtproto.pb.go:67-86 MarshalToSizedBufferVT and 106-125
    MarshalToSizedBufferVTStrict, the same text. *)
Definition Timestamp_MarshalToSizedBufferVT (m : option Timestamp) (dAtA : list Z) : res unit (list Z * Z) :=
  match m with
  | None => Ok (dAtA, 0)
  | Some m =>
      let st := (dAtA, zlen dAtA) in
      written dAtA
        (do st <- (if negb (Nanos m =? 0) then do st <- encodeVarint (u64 (Nanos m)) st; put_byte 16 st else Ok st);
         if negb (Seconds m =? 0) then do st <- encodeVarint (u64 (Seconds m)) st; put_byte 8 st else Ok st)
  end.
(** timestamp_vtproto.pb.go:146-222: the body of the loop of UnmarshalVT (and 234-310, of
    UnmarshalVTUnsafe, the same text). *)
Definition Timestamp_step (dAtA : list Z) (m : option Timestamp) (iNdEx : Z) : res (option Timestamp) (option Timestamp * Z) :=
  let preIndex := iNdEx in
  do r <- read_tag dAtA iNdEx m;
  let '(fieldNum, wireType, iNdEx) := r in
  if fieldNum =? 1 then
    if negb (wireType =? 0) then Err EWireType m else
    on m (fun m => varint_into 11 s64 Seconds set_Seconds dAtA iNdEx 0 (set_Seconds 0 m))
  else if fieldNum =? 2 then
    if negb (wireType =? 0) then Err EWireType m else
    on m (fun m => varint_into 11 s32 Nanos set_Nanos dAtA iNdEx 0 (set_Nanos 0 m))
  else skip_field dAtA preIndex m.
(** timestamp_vtproto.pb.go:34-47 EqualVT. *)
Definition Timestamp_EqualVT (o : bool) (this that : option Timestamp) : bool :=
  let same := fun x y => (Seconds x =? Seconds y) && (Nanos x =? Nanos y) in
  equal o same
    (fun x y =>
       if negb (Seconds x =? Seconds y) then false else
       if negb (Nanos x =? Nanos y) then false else true) this that.
(** timestamp_vtproto.pb.go:24-32 CloneVT. *)
Definition Timestamp_CloneVT (m : option Timestamp) : option Timestamp :=
  match m with
  | None => None
  | Some m =>
      let r := mkTimestamp 0 0 in
      let r := set_Seconds (Seconds m) r in
      let r := set_Nanos (Nanos m) r in
      Some r
  end.
(** The methods of timestamppb.Timestamp; those of durationpb.Duration
    (duration_vtproto.pb.go:24-229) differ from them in the name of the type only. *)
Definition Timestamp_helpers : helpers (option Timestamp) :=
  flat_helpers Timestamp_SizeVT Timestamp_MarshalToSizedBufferVT Timestamp_step Timestamp_EqualVT Timestamp_CloneVT.

(** * emptypb/empty_vtproto.pb.go *)
(** emptypb.Empty: no members. *)
Record Empty : Type := mkEmpty {}.
(** empty_vtproto.pb.go:99-106 SizeVT. *)
Definition Empty_SizeVT (m : option Empty) : Z := 0.
(** empty_vtproto.pb.go:59-68 MarshalToSizedBufferVT and 88-97 (Strict, same text). *)
Definition Empty_MarshalToSizedBufferVT (m : option Empty) (dAtA : list Z) : res unit (list Z * Z) :=
  match m with
  | None => Ok (dAtA, 0)
  | Some m => written dAtA (Ok (dAtA, zlen dAtA))
  end.
(** empty_vtproto.pb.go:112-150: the body of the loop of UnmarshalVT. *)
Definition Empty_step (dAtA : list Z) (m : option Empty) (iNdEx : Z) : res (option Empty) (option Empty * Z) :=
  let preIndex := iNdEx in
  do r <- read_tag dAtA iNdEx m;
  skip_field dAtA preIndex m.
(** empty_vtproto.pb.go:32-39 EqualVT. *)
Definition Empty_EqualVT (o : bool) (this that : option Empty) : bool :=
  equal o (fun _ _ => true) (fun _ _ => true) this that.
(** empty_vtproto.pb.go:24-30 CloneVT. *)
Definition Empty_CloneVT (m : option Empty) : option Empty :=
  match m with None => None | Some m => Some mkEmpty end.
(** The methods of emptypb.Empty. *)
Definition Empty_helpers : helpers (option Empty) :=
  flat_helpers Empty_SizeVT Empty_MarshalToSizedBufferVT Empty_step Empty_EqualVT Empty_CloneVT.

(** * anypb/any_vtproto.pb.go *)
(** The length of a slice that may be nil, and its elements. *)
Definition elems {A} (s : option (list A)) : list A := match s with Some l => l | None => [] end.
(** anypb.Any. *)
Record Any : Type := mkAny { TypeUrl : list Z; AnyValue : option (list Z) }.
(** any_vtproto.pb.go:140-155 SizeVT. *)
Definition Any_SizeVT (m : option Any) : Z :=
  match m with
  | None => 0
  | Some m =>
      let n := 0 in
      let l := zlen (TypeUrl m) in
      let n := if 0 <? l then n + (1 + l + SizeOfVarint l) else n in
      let l := zlen (elems (AnyValue m)) in
      let n := if 0 <? l then n + (1 + l + SizeOfVarint l) else n in
      n
  end.
(** any_vtproto.pb.go:72-95 MarshalToSizedBufferVT and 115-138 (Strict, same text). *)
Definition Any_MarshalToSizedBufferVT (m : option Any) (dAtA : list Z) : res unit (list Z * Z) :=
  match m with
  | None => Ok (dAtA, 0)
  | Some m =>
      let st := (dAtA, zlen dAtA) in
      written dAtA
        (do st <- (if 0 <? zlen (elems (AnyValue m))
                   then do st <- put_counted (elems (AnyValue m)) st; put_byte 18 st else Ok st);
         if 0 <? zlen (TypeUrl m) then do st <- put_counted (TypeUrl m) st; put_byte 10 st else Ok st)
  end.
(** any_vtproto.pb.go:161-265: the body of the loop of UnmarshalVT.  The appending to
    [m.Value[:0]] leaves the bytes just read, never nil (247-250). *)
Definition Any_step (dAtA : list Z) (m : option Any) (iNdEx : Z) : res (option Any) (option Any * Z) :=
  let preIndex := iNdEx in
  do r <- read_tag dAtA iNdEx m;
  let '(fieldNum, wireType, iNdEx) := r in
  if fieldNum =? 1 then
    if negb (wireType =? 2) then Err EWireType m else
    do r <- lift m (decodeLen true dAtA iNdEx);
    let (iNdEx, postIndex) := r in
    do s <- orpanic (zslice dAtA iNdEx postIndex);
    do m <- assign m (fun m => mkAny s (AnyValue m));
    Ok (m, postIndex)
  else if fieldNum =? 2 then
    if negb (wireType =? 2) then Err EWireType m else
    do r <- lift m (decodeLen false dAtA iNdEx);
    let (iNdEx, postIndex) := r in
    do s <- orpanic (zslice dAtA iNdEx postIndex);
    do m <- assign m (fun m => mkAny (TypeUrl m) (Some s));
    Ok (m, postIndex)
  else skip_field dAtA preIndex m.
(** Whether two byte slices are the same, nil or not. *)
Definition same_bytes (a b : option (list Z)) : bool :=
  match a, b with
  | None, None => true
  | Some x, Some y => str_eqb x y
  | _, _ => false
  end.
(** any_vtproto.pb.go:39-52 EqualVT. *)
Definition Any_EqualVT (o : bool) (this that : option Any) : bool :=
  equal o (fun x y => str_eqb (TypeUrl x) (TypeUrl y) && same_bytes (AnyValue x) (AnyValue y))
    (fun x y =>
       if negb (str_eqb (TypeUrl x) (TypeUrl y)) then false else
       if negb (str_eqb (elems (AnyValue x)) (elems (AnyValue y))) then false else true) this that.
(** any_vtproto.pb.go:25-37 CloneVT. *)
Definition Any_CloneVT (m : option Any) : option Any :=
  match m with
  | None => None
  | Some m =>
      let r := mkAny [] None in
      let r := mkAny (TypeUrl m) (AnyValue r) in
      let r := match AnyValue m with Some rhs => mkAny (TypeUrl r) (Some rhs) | None => r end in
      Some r
  end.
(** The methods of anypb.Any. *)
Definition Any_helpers : helpers (option Any) :=
  flat_helpers Any_SizeVT Any_MarshalToSizedBufferVT Any_step Any_EqualVT Any_CloneVT.

(** * fieldmaskpb/field_mask_vtproto.pb.go *)
(** A loop over a slice from the last element to the first and one from the first to the
    last, running [F] (field_mask_vtproto.pb.go:83-89; struct_vtproto.pb.go:409-427). *)
Section Loops.
Context {A : Type}.
Variable F : A -> mst -> mres.
Fixpoint backward (l : list A) (st : mst) : mres :=
  match l with
  | [] => Ok st
  | x :: l' => do st <- backward l' st; F x st
  end.
Fixpoint forward (l : list A) (st : mst) : mres :=
  match l with
  | [] => Ok st
  | x :: l' => do st <- F x st; forward l' st
  end.
End Loops.
(** [for _, e := range l { n += f(e) }] from [n] (field_mask_vtproto.pb.go:139-142). *)
Definition add_all {A} (f : A -> Z) (l : list A) (n : Z) : Z := fold_left (fun n e => n + f e) l n.
(** fieldmaskpb.FieldMask. *)
Record FieldMask : Type := mkFieldMask { Paths : option (list (list Z)) }.
(** field_mask_vtproto.pb.go:132-145 SizeVT. *)
Definition FieldMask_SizeVT (m : option FieldMask) : Z :=
  match m with
  | None => 0
  | Some m =>
      let n := 0 in
      if 0 <? zlen (elems (Paths m)) then
        add_all (fun s => let l := zlen s in 1 + l + SizeOfVarint l) (elems (Paths m)) n
      else n
  end.
(** field_mask_vtproto.pb.go:74-92 MarshalToSizedBufferVT and 112-130 (Strict, same text). *)
Definition FieldMask_MarshalToSizedBufferVT (m : option FieldMask) (dAtA : list Z) : res unit (list Z * Z) :=
  match m with
  | None => Ok (dAtA, 0)
  | Some m =>
      let st := (dAtA, zlen dAtA) in
      written dAtA
        (if 0 <? zlen (elems (Paths m)) then
           backward (fun s st => do st <- put_counted s st; put_byte 10 st) (elems (Paths m)) st
         else Ok st)
  end.
(** field_mask_vtproto.pb.go:151-221: the body of the loop of UnmarshalVT. *)
Definition FieldMask_step (dAtA : list Z) (m : option FieldMask) (iNdEx : Z) : res (option FieldMask) (option FieldMask * Z) :=
  let preIndex := iNdEx in
  do r <- read_tag dAtA iNdEx m;
  let '(fieldNum, wireType, iNdEx) := r in
  if fieldNum =? 1 then
    if negb (wireType =? 2) then Err EWireType m else
    do r <- lift m (decodeLen true dAtA iNdEx);
    let (iNdEx, postIndex) := r in
    do s <- orpanic (zslice dAtA iNdEx postIndex);
    do m <- assign m (fun m => mkFieldMask (Some (elems (Paths m) ++ [s])));
    Ok (m, postIndex)
  else skip_field dAtA preIndex m.
(** [for i, vx := range a { vy := b[i]; if vx != vy { return false } }; return true]
    (field_mask_vtproto.pb.go:47-53); the lengths are equal. *)
Fixpoint same_strings (a b : list (list Z)) : bool :=
  match a, b with
  | [], _ => true
  | vx :: a, vy :: b => if negb (str_eqb vx vy) then false else same_strings a b
  | _ :: _, [] => false
  end.
(** field_mask_vtproto.pb.go:38-54 EqualVT. *)
Definition FieldMask_EqualVT (o : bool) (this that : option FieldMask) : bool :=
  equal o (fun x y => match Paths x, Paths y with
                      | None, None => true
                      | Some a, Some b => (zlen a =? zlen b) && same_strings a b
                      | _, _ => false
                      end)
    (fun x y =>
       if negb (zlen (elems (Paths x)) =? zlen (elems (Paths y))) then false else
       same_strings (elems (Paths x)) (elems (Paths y))) this that.
(** field_mask_vtproto.pb.go:25-36 CloneVT. *)
Definition FieldMask_CloneVT (m : option FieldMask) : option FieldMask :=
  match m with
  | None => None
  | Some m =>
      let r := mkFieldMask None in
      let r := match Paths m with Some rhs => mkFieldMask (Some rhs) | None => r end in
      Some r
  end.
(** The methods of fieldmaskpb.FieldMask. *)
Definition FieldMask_helpers : helpers (option FieldMask) :=
  flat_helpers FieldMask_SizeVT FieldMask_MarshalToSizedBufferVT FieldMask_step FieldMask_EqualVT FieldMask_CloneVT.

(** * wrapperspb/wrappers_vtproto.pb.go *)
(** wrapperspb.DoubleValue, FloatValue, Int64Value, UInt64Value, Int32Value, UInt32Value:
    one member, a number (of a float the bits). *)
Record NumberValue : Type := mkNumberValue { number : Z }.
(** wrapperspb.BoolValue, StringValue, BytesValue. *)
Record BoolValue : Type := mkBoolValue { boolean : bool }.
Record StringValue : Type := mkStringValue { string : list Z }.
Record BytesValue : Type := mkBytesValue { bytes : option (list Z) }.
(** The member as a place. *)
Definition set_number (z : Z) (m : NumberValue) : NumberValue := mkNumberValue z.

(** wrappers_vtproto.pb.go:862-872 SizeVT of DoubleValue. *)
Definition DoubleValue_SizeVT (m : option NumberValue) : Z :=
  match m with
  | None => 0
  | Some m =>
      if negb (is_zero KDouble (number m)) then 0 + 9 else 0
  end.
(** wrappers_vtproto.pb.go:246-261 MarshalToSizedBufferVT and 563-578 (Strict, same text). *)
Definition DoubleValue_MarshalToSizedBufferVT (m : option NumberValue) (dAtA : list Z) : res unit (list Z * Z) :=
  match m with
  | None => Ok (dAtA, 0)
  | Some m =>
      let st := (dAtA, zlen dAtA) in
      written dAtA (if negb (is_zero KDouble (number m)) then do st <- encodeFixed64 (number m) st; put_byte 9 st else Ok st)
  end.
(** wrappers_vtproto.pb.go:972-1032 UnmarshalVT and
    1606-1666 UnmarshalVTUnsafe, the same text: the body of the loop. *)
Definition DoubleValue_step (dAtA : list Z) (m : option NumberValue) (iNdEx : Z) : res (option NumberValue) (option NumberValue * Z) :=
  let preIndex := iNdEx in
  do r <- read_tag dAtA iNdEx m;
  let '(fieldNum, wireType, iNdEx) := r in
  if fieldNum =? 1 then
    if negb (wireType =? 1) then Err EWireType m else
    do r <- lift m (decodeFixed 8 dAtA iNdEx);
    let (v, iNdEx) := r in
    do m <- assign m (set_number v);
    Ok (m, iNdEx)
  else skip_field dAtA preIndex m.
(** wrappers_vtproto.pb.go:120-130 EqualVT. *)
Definition DoubleValue_EqualVT (o : bool) (this that : option NumberValue) : bool :=
  equal o (fun x y => number x =? number y)
    (fun x y => if negb (num_eqb KDouble (number x) (number y)) then false else true) this that.
(** wrappers_vtproto.pb.go:35-42 CloneVT. *)
Definition DoubleValue_CloneVT (m : option NumberValue) : option NumberValue :=
  match m with
  | None => None
  | Some m =>
      Some (mkNumberValue (number m))
  end.
(** The methods of wrapperspb.DoubleValue. *)
Definition DoubleValue_helpers : helpers (option NumberValue) :=
  flat_helpers DoubleValue_SizeVT DoubleValue_MarshalToSizedBufferVT DoubleValue_step DoubleValue_EqualVT DoubleValue_CloneVT.

(** wrappers_vtproto.pb.go:874-884 SizeVT of FloatValue. *)
Definition FloatValue_SizeVT (m : option NumberValue) : Z :=
  match m with
  | None => 0
  | Some m =>
      if negb (is_zero KFloat (number m)) then 0 + 5 else 0
  end.
(** wrappers_vtproto.pb.go:281-296 MarshalToSizedBufferVT and 598-613 (Strict, same text). *)
Definition FloatValue_MarshalToSizedBufferVT (m : option NumberValue) (dAtA : list Z) : res unit (list Z * Z) :=
  match m with
  | None => Ok (dAtA, 0)
  | Some m =>
      let st := (dAtA, zlen dAtA) in
      written dAtA (if negb (is_zero KFloat (number m)) then do st <- encodeFixed32 (number m) st; put_byte 13 st else Ok st)
  end.
(** wrappers_vtproto.pb.go:1033-1093 UnmarshalVT and
    1667-1727 UnmarshalVTUnsafe, the same text: the body of the loop. *)
Definition FloatValue_step (dAtA : list Z) (m : option NumberValue) (iNdEx : Z) : res (option NumberValue) (option NumberValue * Z) :=
  let preIndex := iNdEx in
  do r <- read_tag dAtA iNdEx m;
  let '(fieldNum, wireType, iNdEx) := r in
  if fieldNum =? 1 then
    if negb (wireType =? 5) then Err EWireType m else
    do r <- lift m (decodeFixed 4 dAtA iNdEx);
    let (v, iNdEx) := r in
    do m <- assign m (set_number v);
    Ok (m, iNdEx)
  else skip_field dAtA preIndex m.
(** wrappers_vtproto.pb.go:132-142 EqualVT. *)
Definition FloatValue_EqualVT (o : bool) (this that : option NumberValue) : bool :=
  equal o (fun x y => number x =? number y)
    (fun x y => if negb (num_eqb KFloat (number x) (number y)) then false else true) this that.
(** wrappers_vtproto.pb.go:44-51 CloneVT. *)
Definition FloatValue_CloneVT (m : option NumberValue) : option NumberValue :=
  match m with
  | None => None
  | Some m =>
      Some (mkNumberValue (number m))
  end.
(** The methods of wrapperspb.FloatValue. *)
Definition FloatValue_helpers : helpers (option NumberValue) :=
  flat_helpers FloatValue_SizeVT FloatValue_MarshalToSizedBufferVT FloatValue_step FloatValue_EqualVT FloatValue_CloneVT.

(** wrappers_vtproto.pb.go:886-896 SizeVT of Int64Value. *)
Definition Int64Value_SizeVT (m : option NumberValue) : Z :=
  match m with
  | None => 0
  | Some m =>
      if negb (number m =? 0) then 0 + (1 + SizeOfVarint (u64 (number m))) else 0
  end.
(** wrappers_vtproto.pb.go:316-330 MarshalToSizedBufferVT and 633-647 (Strict, same text). *)
Definition Int64Value_MarshalToSizedBufferVT (m : option NumberValue) (dAtA : list Z) : res unit (list Z * Z) :=
  match m with
  | None => Ok (dAtA, 0)
  | Some m =>
      let st := (dAtA, zlen dAtA) in
      written dAtA (if negb (number m =? 0) then do st <- encodeVarint (u64 (number m)) st; put_byte 8 st else Ok st)
  end.
(** wrappers_vtproto.pb.go:1094-1162 UnmarshalVT and
    1728-1796 UnmarshalVTUnsafe, the same text: the body of the loop. *)
Definition Int64Value_step (dAtA : list Z) (m : option NumberValue) (iNdEx : Z) : res (option NumberValue) (option NumberValue * Z) :=
  let preIndex := iNdEx in
  do r <- read_tag dAtA iNdEx m;
  let '(fieldNum, wireType, iNdEx) := r in
  if fieldNum =? 1 then
    if negb (wireType =? 0) then Err EWireType m else
    on m (fun m => varint_into 11 s64 number set_number dAtA iNdEx 0 (set_number 0 m))
  else skip_field dAtA preIndex m.
(** wrappers_vtproto.pb.go:144-154 EqualVT. *)
Definition Int64Value_EqualVT (o : bool) (this that : option NumberValue) : bool :=
  equal o (fun x y => number x =? number y)
    (fun x y => if negb (number x =? number y) then false else true) this that.
(** wrappers_vtproto.pb.go:53-60 CloneVT. *)
Definition Int64Value_CloneVT (m : option NumberValue) : option NumberValue :=
  match m with
  | None => None
  | Some m =>
      Some (mkNumberValue (number m))
  end.
(** The methods of wrapperspb.Int64Value. *)
Definition Int64Value_helpers : helpers (option NumberValue) :=
  flat_helpers Int64Value_SizeVT Int64Value_MarshalToSizedBufferVT Int64Value_step Int64Value_EqualVT Int64Value_CloneVT.

(** wrappers_vtproto.pb.go:898-908 SizeVT of UInt64Value. *)
Definition UInt64Value_SizeVT (m : option NumberValue) : Z :=
  match m with
  | None => 0
  | Some m =>
      if negb (number m =? 0) then 0 + (1 + SizeOfVarint (u64 (number m))) else 0
  end.
(** wrappers_vtproto.pb.go:350-364 MarshalToSizedBufferVT and 667-681 (Strict, same text). *)
Definition UInt64Value_MarshalToSizedBufferVT (m : option NumberValue) (dAtA : list Z) : res unit (list Z * Z) :=
  match m with
  | None => Ok (dAtA, 0)
  | Some m =>
      let st := (dAtA, zlen dAtA) in
      written dAtA (if negb (number m =? 0) then do st <- encodeVarint (u64 (number m)) st; put_byte 8 st else Ok st)
  end.
(** wrappers_vtproto.pb.go:1163-1231 UnmarshalVT and
    1797-1865 UnmarshalVTUnsafe, the same text: the body of the loop. *)
Definition UInt64Value_step (dAtA : list Z) (m : option NumberValue) (iNdEx : Z) : res (option NumberValue) (option NumberValue * Z) :=
  let preIndex := iNdEx in
  do r <- read_tag dAtA iNdEx m;
  let '(fieldNum, wireType, iNdEx) := r in
  if fieldNum =? 1 then
    if negb (wireType =? 0) then Err EWireType m else
    on m (fun m => varint_into 11 u64 number set_number dAtA iNdEx 0 (set_number 0 m))
  else skip_field dAtA preIndex m.
(** wrappers_vtproto.pb.go:156-166 EqualVT. *)
Definition UInt64Value_EqualVT (o : bool) (this that : option NumberValue) : bool :=
  equal o (fun x y => number x =? number y)
    (fun x y => if negb (number x =? number y) then false else true) this that.
(** wrappers_vtproto.pb.go:62-69 CloneVT. *)
Definition UInt64Value_CloneVT (m : option NumberValue) : option NumberValue :=
  match m with
  | None => None
  | Some m =>
      Some (mkNumberValue (number m))
  end.
(** The methods of wrapperspb.UInt64Value. *)
Definition UInt64Value_helpers : helpers (option NumberValue) :=
  flat_helpers UInt64Value_SizeVT UInt64Value_MarshalToSizedBufferVT UInt64Value_step UInt64Value_EqualVT UInt64Value_CloneVT.

(** wrappers_vtproto.pb.go:910-920 SizeVT of Int32Value. *)
Definition Int32Value_SizeVT (m : option NumberValue) : Z :=
  match m with
  | None => 0
  | Some m =>
      if negb (number m =? 0) then 0 + (1 + SizeOfVarint (u64 (number m))) else 0
  end.
(** wrappers_vtproto.pb.go:384-398 MarshalToSizedBufferVT and 701-715 (Strict, same text). *)
Definition Int32Value_MarshalToSizedBufferVT (m : option NumberValue) (dAtA : list Z) : res unit (list Z * Z) :=
  match m with
  | None => Ok (dAtA, 0)
  | Some m =>
      let st := (dAtA, zlen dAtA) in
      written dAtA (if negb (number m =? 0) then do st <- encodeVarint (u64 (number m)) st; put_byte 8 st else Ok st)
  end.
(** wrappers_vtproto.pb.go:1232-1300 UnmarshalVT and
    1866-1934 UnmarshalVTUnsafe, the same text: the body of the loop. *)
Definition Int32Value_step (dAtA : list Z) (m : option NumberValue) (iNdEx : Z) : res (option NumberValue) (option NumberValue * Z) :=
  let preIndex := iNdEx in
  do r <- read_tag dAtA iNdEx m;
  let '(fieldNum, wireType, iNdEx) := r in
  if fieldNum =? 1 then
    if negb (wireType =? 0) then Err EWireType m else
    on m (fun m => varint_into 11 s32 number set_number dAtA iNdEx 0 (set_number 0 m))
  else skip_field dAtA preIndex m.
(** wrappers_vtproto.pb.go:168-178 EqualVT. *)
Definition Int32Value_EqualVT (o : bool) (this that : option NumberValue) : bool :=
  equal o (fun x y => number x =? number y)
    (fun x y => if negb (number x =? number y) then false else true) this that.
(** wrappers_vtproto.pb.go:71-78 CloneVT. *)
Definition Int32Value_CloneVT (m : option NumberValue) : option NumberValue :=
  match m with
  | None => None
  | Some m =>
      Some (mkNumberValue (number m))
  end.
(** The methods of wrapperspb.Int32Value. *)
Definition Int32Value_helpers : helpers (option NumberValue) :=
  flat_helpers Int32Value_SizeVT Int32Value_MarshalToSizedBufferVT Int32Value_step Int32Value_EqualVT Int32Value_CloneVT.

(** wrappers_vtproto.pb.go:922-932 SizeVT of UInt32Value. *)
Definition UInt32Value_SizeVT (m : option NumberValue) : Z :=
  match m with
  | None => 0
  | Some m =>
      if negb (number m =? 0) then 0 + (1 + SizeOfVarint (u64 (number m))) else 0
  end.
(** wrappers_vtproto.pb.go:418-432 MarshalToSizedBufferVT and 735-749 (Strict, same text). *)
Definition UInt32Value_MarshalToSizedBufferVT (m : option NumberValue) (dAtA : list Z) : res unit (list Z * Z) :=
  match m with
  | None => Ok (dAtA, 0)
  | Some m =>
      let st := (dAtA, zlen dAtA) in
      written dAtA (if negb (number m =? 0) then do st <- encodeVarint (u64 (number m)) st; put_byte 8 st else Ok st)
  end.
(** wrappers_vtproto.pb.go:1301-1369 UnmarshalVT and
    1935-2003 UnmarshalVTUnsafe, the same text: the body of the loop. *)
Definition UInt32Value_step (dAtA : list Z) (m : option NumberValue) (iNdEx : Z) : res (option NumberValue) (option NumberValue * Z) :=
  let preIndex := iNdEx in
  do r <- read_tag dAtA iNdEx m;
  let '(fieldNum, wireType, iNdEx) := r in
  if fieldNum =? 1 then
    if negb (wireType =? 0) then Err EWireType m else
    on m (fun m => varint_into 11 u32 number set_number dAtA iNdEx 0 (set_number 0 m))
  else skip_field dAtA preIndex m.
(** wrappers_vtproto.pb.go:180-190 EqualVT. *)
Definition UInt32Value_EqualVT (o : bool) (this that : option NumberValue) : bool :=
  equal o (fun x y => number x =? number y)
    (fun x y => if negb (number x =? number y) then false else true) this that.
(** wrappers_vtproto.pb.go:80-87 CloneVT. *)
Definition UInt32Value_CloneVT (m : option NumberValue) : option NumberValue :=
  match m with
  | None => None
  | Some m =>
      Some (mkNumberValue (number m))
  end.
(** The methods of wrapperspb.UInt32Value. *)
Definition UInt32Value_helpers : helpers (option NumberValue) :=
  flat_helpers UInt32Value_SizeVT UInt32Value_MarshalToSizedBufferVT UInt32Value_step UInt32Value_EqualVT UInt32Value_CloneVT.

(** wrappers_vtproto.pb.go:934-944 SizeVT of BoolValue. *)
Definition BoolValue_SizeVT (m : option BoolValue) : Z :=
  match m with
  | None => 0
  | Some m =>
      if boolean m then 0 + 2 else 0
  end.
(** wrappers_vtproto.pb.go:452-471 MarshalToSizedBufferVT and 769-788 (Strict, same text). *)
Definition BoolValue_MarshalToSizedBufferVT (m : option BoolValue) (dAtA : list Z) : res unit (list Z * Z) :=
  match m with
  | None => Ok (dAtA, 0)
  | Some m =>
      let st := (dAtA, zlen dAtA) in
      written dAtA (if boolean m then do st <- put_byte (if boolean m then 1 else 0) st; put_byte 8 st else Ok st)
  end.
(** wrappers_vtproto.pb.go:1370-1439 UnmarshalVT and
    2004-2073 UnmarshalVTUnsafe, the same text: the body of the loop. *)
Definition BoolValue_step (dAtA : list Z) (m : option BoolValue) (iNdEx : Z) : res (option BoolValue) (option BoolValue * Z) :=
  let preIndex := iNdEx in
  do r <- read_tag dAtA iNdEx m;
  let '(fieldNum, wireType, iNdEx) := r in
  if fieldNum =? 1 then
    if negb (wireType =? 0) then Err EWireType m else
    do r <- lift m (decodeVarint s64 0 dAtA iNdEx);
    let (v, iNdEx) := r in
    do m <- assign m (fun _ => mkBoolValue (negb (v =? 0)));
    Ok (m, iNdEx)
  else skip_field dAtA preIndex m.
(** wrappers_vtproto.pb.go:192-202 EqualVT. *)
Definition BoolValue_EqualVT (o : bool) (this that : option BoolValue) : bool :=
  equal o (fun x y => Bool.eqb (boolean x) (boolean y))
    (fun x y => if negb (Bool.eqb (boolean x) (boolean y)) then false else true) this that.
(** wrappers_vtproto.pb.go:89-96 CloneVT. *)
Definition BoolValue_CloneVT (m : option BoolValue) : option BoolValue :=
  match m with
  | None => None
  | Some m =>
      Some (mkBoolValue (boolean m))
  end.
(** The methods of wrapperspb.BoolValue. *)
Definition BoolValue_helpers : helpers (option BoolValue) :=
  flat_helpers BoolValue_SizeVT BoolValue_MarshalToSizedBufferVT BoolValue_step BoolValue_EqualVT BoolValue_CloneVT.

(** wrappers_vtproto.pb.go:946-957 SizeVT of StringValue. *)
Definition StringValue_SizeVT (m : option StringValue) : Z :=
  match m with
  | None => 0
  | Some m =>
      let l := zlen (string m) in
      if 0 <? l then 0 + (1 + l + SizeOfVarint l) else 0
  end.
(** wrappers_vtproto.pb.go:491-507 MarshalToSizedBufferVT and 808-824 (Strict, same text). *)
Definition StringValue_MarshalToSizedBufferVT (m : option StringValue) (dAtA : list Z) : res unit (list Z * Z) :=
  match m with
  | None => Ok (dAtA, 0)
  | Some m =>
      let st := (dAtA, zlen dAtA) in
      written dAtA (if 0 <? zlen (string m) then do st <- put_counted (string m) st; put_byte 10 st else Ok st)
  end.
(** wrappers_vtproto.pb.go:1440-1521 UnmarshalVT: the body of the loop. *)
Definition StringValue_step (dAtA : list Z) (m : option StringValue) (iNdEx : Z) : res (option StringValue) (option StringValue * Z) :=
  let preIndex := iNdEx in
  do r <- read_tag dAtA iNdEx m;
  let '(fieldNum, wireType, iNdEx) := r in
  if fieldNum =? 1 then
    if negb (wireType =? 2) then Err EWireType m else
    do r <- lift m (decodeLen true dAtA iNdEx);
    let (iNdEx, postIndex) := r in
    do s <- orpanic (zslice dAtA iNdEx postIndex);
    do m <- assign m (fun _ => mkStringValue s);
    Ok (m, postIndex)
  else skip_field dAtA preIndex m.
(** wrappers_vtproto.pb.go:204-214 EqualVT. *)
Definition StringValue_EqualVT (o : bool) (this that : option StringValue) : bool :=
  equal o (fun x y => str_eqb (string x) (string y))
    (fun x y => if negb (str_eqb (string x) (string y)) then false else true) this that.
(** wrappers_vtproto.pb.go:98-105 CloneVT. *)
Definition StringValue_CloneVT (m : option StringValue) : option StringValue :=
  match m with
  | None => None
  | Some m =>
      Some (mkStringValue (string m))
  end.
(** The methods of wrapperspb.StringValue. *)
Definition StringValue_helpers : helpers (option StringValue) :=
  flat_helpers StringValue_SizeVT StringValue_MarshalToSizedBufferVT StringValue_step StringValue_EqualVT StringValue_CloneVT.

(** wrappers_vtproto.pb.go:959-970 SizeVT of BytesValue. *)
Definition BytesValue_SizeVT (m : option BytesValue) : Z :=
  match m with
  | None => 0
  | Some m =>
      let l := zlen (elems (bytes m)) in
      if 0 <? l then 0 + (1 + l + SizeOfVarint l) else 0
  end.
(** wrappers_vtproto.pb.go:527-543 MarshalToSizedBufferVT and 844-860 (Strict, same text). *)
Definition BytesValue_MarshalToSizedBufferVT (m : option BytesValue) (dAtA : list Z) : res unit (list Z * Z) :=
  match m with
  | None => Ok (dAtA, 0)
  | Some m =>
      let st := (dAtA, zlen dAtA) in
      written dAtA (if 0 <? zlen (elems (bytes m)) then do st <- put_counted (elems (bytes m)) st; put_byte 10 st else Ok st)
  end.
(** wrappers_vtproto.pb.go:1522-1605 UnmarshalVT: the body of the loop. *)
Definition BytesValue_step (dAtA : list Z) (m : option BytesValue) (iNdEx : Z) : res (option BytesValue) (option BytesValue * Z) :=
  let preIndex := iNdEx in
  do r <- read_tag dAtA iNdEx m;
  let '(fieldNum, wireType, iNdEx) := r in
  if fieldNum =? 1 then
    if negb (wireType =? 2) then Err EWireType m else
    do r <- lift m (decodeLen false dAtA iNdEx);
    let (iNdEx, postIndex) := r in
    do s <- orpanic (zslice dAtA iNdEx postIndex);
    do m <- assign m (fun _ => mkBytesValue (Some s));
    Ok (m, postIndex)
  else skip_field dAtA preIndex m.
(** wrappers_vtproto.pb.go:216-226 EqualVT. *)
Definition BytesValue_EqualVT (o : bool) (this that : option BytesValue) : bool :=
  equal o (fun x y => same_bytes (bytes x) (bytes y))
    (fun x y => if negb (str_eqb (elems (bytes x)) (elems (bytes y))) then false else true) this that.
(** wrappers_vtproto.pb.go:107-118 CloneVT. *)
Definition BytesValue_CloneVT (m : option BytesValue) : option BytesValue :=
  match m with
  | None => None
  | Some m =>
      let r := mkBytesValue None in
      let r := match bytes m with Some rhs => mkBytesValue (Some rhs) | None => r end in
      Some r
  end.
(** The methods of wrapperspb.BytesValue. *)
Definition BytesValue_helpers : helpers (option BytesValue) :=
  flat_helpers BytesValue_SizeVT BytesValue_MarshalToSizedBufferVT BytesValue_step BytesValue_EqualVT BytesValue_CloneVT.

(** * structpb/struct_vtproto.pb.go *)
(** structpb.Value (a pointer, [Value_nil] is nil), its member Kind (an interface holding nil
    or a pointer to one of the six wrappers; a nil pointer in a non-nil interface is not
    represented), structpb.Struct and structpb.ListValue (pointers).  A map is the list of its
    entries in the order of the iteration at hand. *)
Inductive Value : Type :=
| Value_nil
| Value_new (Kind : ValueKind)
with ValueKind : Type :=
| Kind_nil
| Value_NullValue (x : Z)
| Value_NumberValue (x : Z)
| Value_StringValue (x : list Z)
| Value_BoolValue (x : bool)
| Value_StructValue (x : Struct)
| Value_ListValue (x : ListValue)
with Struct : Type :=
| Struct_nil
| Struct_new (Fields : option (list (list Z * Value)))
with ListValue : Type :=
| ListValue_nil
| ListValue_new (Values : option (list Value)).

(** How the values of the model of the generator represent them. *)
Fixpoint Value_val (m : Value) : val :=
  match m with
  | Value_nil => VNil
  | Value_new k => VMsg [Kind_val k] [] []
  end
with Kind_val (k : ValueKind) : val :=
  match k with
  | Kind_nil => VNil
  | Value_NullValue x => VOneof 1 (VInt x)
  | Value_NumberValue x => VOneof 2 (VInt x)
  | Value_StringValue x => VOneof 3 (VStr x)
  | Value_BoolValue x => VOneof 4 (VInt (if x then 1 else 0))
  | Value_StructValue x => VOneof 5 (Struct_val x)
  | Value_ListValue x => VOneof 6 (ListValue_val x)
  end
with Struct_val (m : Struct) : val :=
  match m with
  | Struct_nil => VNil
  | Struct_new None => VMsg [VNil] [] []
  | Struct_new (Some l) => VMsg [VMap (map (fun e => (VStr (fst e), Value_val (snd e))) l)] [] []
  end
with ListValue_val (m : ListValue) : val :=
  match m with
  | ListValue_nil => VNil
  | ListValue_new None => VMsg [VNil] [] []
  | ListValue_new (Some l) => VMsg [VList (map Value_val l)] [] []
  end.

(** struct_vtproto.pb.go:936-957 Value.SizeVT, 959-1023 SizeVT of the wrappers, 914-934
    Struct.SizeVT, 1024-1037 ListValue.SizeVT. *)
Fixpoint Value_SizeVT (m : Value) : Z :=
  match m with
  | Value_nil => 0
  | Value_new k => 0 + Kind_SizeVT k
  end
with Kind_SizeVT (k : ValueKind) : Z :=
  match k with
  | Kind_nil => 0
  | Value_NullValue x => 0 + (1 + SizeOfVarint (u64 x))
  | Value_NumberValue x => 0 + 9
  | Value_StringValue x => let l := zlen x in 0 + (1 + l + SizeOfVarint l)
  | Value_BoolValue x => 0 + 2
  | Value_StructValue x =>
      match x with
      | Struct_nil => 0 + 2
      | _ => let l := Struct_SizeVT x in 0 + (1 + l + SizeOfVarint l)
      end
  | Value_ListValue x =>
      match x with
      | ListValue_nil => 0 + 2
      | _ => let l := ListValue_SizeVT x in 0 + (1 + l + SizeOfVarint l)
      end
  end
with Struct_SizeVT (m : Struct) : Z :=
  match m with
  | Struct_nil => 0
  | Struct_new None => 0
  | Struct_new (Some fields) =>
      if 0 <? zlen fields then
        fold_left (fun n e =>
          let k := fst e in
          let l := match snd e with Value_nil => 0 | _ => Value_SizeVT (snd e) end in
          let l := l + (1 + SizeOfVarint l) in
          let mapEntrySize := 1 + zlen k + SizeOfVarint (zlen k) + l in
          n + (mapEntrySize + 1 + SizeOfVarint mapEntrySize)) fields 0
      else 0
  end
with ListValue_SizeVT (m : ListValue) : Z :=
  match m with
  | ListValue_nil => 0
  | ListValue_new None => 0
  | ListValue_new (Some values) =>
      if 0 <? zlen values then
        fold_left (fun n e =>
          let l := Value_SizeVT e in
          n + (1 + l + SizeOfVarint l)) values 0
      else 0
  end.

(** [size, err := x.MarshalToSizedBufferVT(dAtA[:i])], [i -= size],
    [i = protohelpers.EncodeVarint(dAtA, i, uint64(size))], [i--], [dAtA[i] = tag]
    (struct_vtproto.pb.go:412-419, 563-571, 629-637). *)
Definition put_message (tag : Z) (callee : list Z -> res unit (list Z * Z)) (st : mst) : mres :=
  do r <- sub_call callee st;
  let (st, size) := r in
  do st <- encodeVarint size st;
  put_byte tag st.
(** struct_vtproto.pb.go:451-498 Value.MarshalToSizedBufferVT, 505-511, 517-524, 530-538,
    544-555, 561-578, 584-601 of the wrappers, 400-431 of Struct, 620-641 of ListValue; and of
    the strict variants, 712-769, 776-872, 661-692, 891-912, whose texts are the same except
    for the calls of each other and Value's dispatch.  [w] is the call of the method of the
    wrapper, [size, err := w.MarshalToSizedBufferVT(dAtA[:i])], [i -= size]. *)
Fixpoint Value_MarshalToSizedBufferVT (strict : bool) (m : Value) (dAtA : list Z) : res unit (list Z * Z) :=
  match m with
  | Value_nil => Ok (dAtA, 0)
  | Value_new k =>
      let st := (dAtA, zlen dAtA) in
      written dAtA
        (let w := fun st => do r <- sub_call (Kind_MarshalToSizedBufferVT strict k) st; Ok (fst r) in
         if strict then
           do st <- match k with Value_ListValue _ => w st | _ => Ok st end;
           do st <- match k with Value_StructValue _ => w st | _ => Ok st end;
           do st <- match k with Value_BoolValue _ => w st | _ => Ok st end;
           do st <- match k with Value_StringValue _ => w st | _ => Ok st end;
           do st <- match k with Value_NumberValue _ => w st | _ => Ok st end;
           match k with Value_NullValue _ => w st | _ => Ok st end
         else
           match k with Kind_nil => Ok st | _ => w st end)
  end
with Kind_MarshalToSizedBufferVT (strict : bool) (k : ValueKind) (dAtA : list Z) : res unit (list Z * Z) :=
  let st := (dAtA, zlen dAtA) in
  written dAtA
    match k with
    | Kind_nil => Ok st
    | Value_NullValue x => do st <- encodeVarint (u64 x) st; put_byte 8 st
    | Value_NumberValue x => do st <- encodeFixed64 x st; put_byte 17 st
    | Value_StringValue x => do st <- put_counted x st; put_byte 26 st
    | Value_BoolValue x => do st <- put_byte (if x then 1 else 0) st; put_byte 32 st
    | Value_StructValue x =>
        match x with
        | Struct_nil => do st <- encodeVarint 0 st; put_byte 42 st
        | _ => put_message 42 (Struct_MarshalToSizedBufferVT strict x) st
        end
    | Value_ListValue x =>
        match x with
        | ListValue_nil => do st <- encodeVarint 0 st; put_byte 50 st
        | _ => put_message 50 (ListValue_MarshalToSizedBufferVT strict x) st
        end
    end
with Struct_MarshalToSizedBufferVT (strict : bool) (m : Struct) (dAtA : list Z) : res unit (list Z * Z) :=
  match m with
  | Struct_nil => Ok (dAtA, 0)
  | Struct_new fields =>
      let st := (dAtA, zlen dAtA) in
      written dAtA
        match fields with
        | None => Ok st
        | Some fields =>
            if 0 <? zlen fields then
              forward (fun e st =>
                let k := fst e in
                let baseI := snd st in
                do st <- put_message 18 (Value_MarshalToSizedBufferVT strict (snd e)) st;
                do st <- put_counted k st;
                do st <- put_byte 10 st;
                do st <- encodeVarint (baseI - snd st) st;
                put_byte 10 st) fields st
            else Ok st
        end
  end
with ListValue_MarshalToSizedBufferVT (strict : bool) (m : ListValue) (dAtA : list Z) : res unit (list Z * Z) :=
  match m with
  | ListValue_nil => Ok (dAtA, 0)
  | ListValue_new values =>
      let st := (dAtA, zlen dAtA) in
      written dAtA
        match values with
        | None => Ok st
        | Some values =>
            if 0 <? zlen values then
              backward (fun e => put_message 10 (Value_MarshalToSizedBufferVT strict e)) values st
            else Ok st
        end
  end.

(** Where UnmarshalVT of a sub-message is called on an object that is already part of the
    message, what a failing call leaves in the object is kept. *)
Definition within {S T} (r : res S S) (put : S -> T) : res T T :=
  match r with
  | Ok x => Ok (put x)
  | Err e x => Err e (put x)
  | Panic => Panic
  | NoFuel => NoFuel
  end.
(** [m.Kind = w]. *)
Definition set_Kind (m : Value) (k : ValueKind) : res Value Value :=
  match m with Value_nil => Panic | Value_new _ => Ok (Value_new k) end.
(** [m.Fields[key] = v] on the entries. *)
Fixpoint set_entry {A} (l : list (list Z * A)) (key : list Z) (v : A) : list (list Z * A) :=
  match l with
  | [] => [(key, v)]
  | (k', v') :: l' => if str_eqb key k' then (k', v) :: l' else (k', v') :: set_entry l' key v
  end.

Section Decode.
(** UnmarshalVT of the sub-messages. *)
Variable value_UnmarshalVT : list Z -> Value -> res Value Value.
Variable struct_UnmarshalVT : list Z -> Struct -> res Struct Struct.
Variable list_UnmarshalVT : list Z -> ListValue -> res ListValue ListValue.

(** struct_vtproto.pb.go:1222-1427: the body of the loop of Value.UnmarshalVT. *)
Definition Value_step (dAtA : list Z) (m : Value) (iNdEx : Z) : res Value (Value * Z) :=
  let preIndex := iNdEx in
  do r <- read_tag dAtA iNdEx m;
  let '(fieldNum, wireType, iNdEx) := r in
  if fieldNum =? 1 then
    if negb (wireType =? 0) then Err EWireType m else
    do r <- lift m (decodeVarint s32 0 dAtA iNdEx);
    let (v, iNdEx) := r in
    do m <- set_Kind m (Value_NullValue v);
    Ok (m, iNdEx)
  else if fieldNum =? 2 then
    if negb (wireType =? 1) then Err EWireType m else
    do r <- lift m (decodeFixed 8 dAtA iNdEx);
    let (v, iNdEx) := r in
    do m <- set_Kind m (Value_NumberValue v);
    Ok (m, iNdEx)
  else if fieldNum =? 3 then
    if negb (wireType =? 2) then Err EWireType m else
    do r <- lift m (decodeLen true dAtA iNdEx);
    let (iNdEx, postIndex) := r in
    do s <- orpanic (zslice dAtA iNdEx postIndex);
    do m <- set_Kind m (Value_StringValue s);
    Ok (m, postIndex)
  else if fieldNum =? 4 then
    if negb (wireType =? 0) then Err EWireType m else
    do r <- lift m (decodeVarint s64 0 dAtA iNdEx);
    let (v, iNdEx) := r in
    let b := negb (v =? 0) in
    do m <- set_Kind m (Value_BoolValue b);
    Ok (m, iNdEx)
  else if fieldNum =? 5 then
    if negb (wireType =? 2) then Err EWireType m else
    do r <- lift m (decodeLen false dAtA iNdEx);
    let (iNdEx, postIndex) := r in
    do buf <- orpanic (zslice dAtA iNdEx postIndex);
    do m <-
      match m with
      | Value_nil => Panic
      | Value_new (Value_StructValue x) =>
          within (struct_UnmarshalVT buf x) (fun x => Value_new (Value_StructValue x))
      | _ =>
          do v <- drop_state m (struct_UnmarshalVT buf (Struct_new None));
          set_Kind m (Value_StructValue v)
      end;
    Ok (m, postIndex)
  else if fieldNum =? 6 then
    if negb (wireType =? 2) then Err EWireType m else
    do r <- lift m (decodeLen false dAtA iNdEx);
    let (iNdEx, postIndex) := r in
    do buf <- orpanic (zslice dAtA iNdEx postIndex);
    do m <-
      match m with
      | Value_nil => Panic
      | Value_new (Value_ListValue x) =>
          within (list_UnmarshalVT buf x) (fun x => Value_new (Value_ListValue x))
      | _ =>
          do v <- drop_state m (list_UnmarshalVT buf (ListValue_new None));
          set_Kind m (Value_ListValue v)
      end;
    Ok (m, postIndex)
  else skip_field dAtA preIndex m.

(** struct_vtproto.pb.go:1102-1190: the loop over one entry of the map. *)
Fixpoint entry_loop (fuel : nat) (dAtA : list Z) (iNdEx postIndex : Z) (mapkey : list Z) (mapvalue : Value)
  : res unit (list Z * Value) :=
  match fuel with
  | O => NoFuel
  | S fuel' =>
      if iNdEx <? postIndex then
        let entryPreIndex := iNdEx in
        do r <- decodeVarint u64 0 dAtA iNdEx;
        let (wire, iNdEx) := r in
        let fieldNum := s32 (Z.shiftr wire 3) in
        if fieldNum =? 1 then
          do r <- decodeLen true dAtA iNdEx;
          let (iNdEx, postStringIndexmapkey) := r in
          do mapkey <- orpanic (zslice dAtA iNdEx postStringIndexmapkey);
          entry_loop fuel' dAtA postStringIndexmapkey postIndex mapkey mapvalue
        else if fieldNum =? 2 then
          do r <- decodeLen false dAtA iNdEx;
          let (iNdEx, postmsgIndex) := r in
          do buf <- orpanic (zslice dAtA iNdEx postmsgIndex);
          do mapvalue <- drop_state tt (value_UnmarshalVT buf (Value_new Kind_nil));
          entry_loop fuel' dAtA postmsgIndex postIndex mapkey mapvalue
        else
          let iNdEx := entryPreIndex in
          do rest <- orpanic (zslice dAtA iNdEx (zlen dAtA));
          do skippy <- Skip rest;
          if (skippy <? 0) || (s64 (iNdEx + skippy) <? 0) then Err EInvalidLength tt else
          if postIndex <? s64 (iNdEx + skippy) then Err EUnexpectedEOF tt else
          entry_loop fuel' dAtA (s64 (iNdEx + skippy)) postIndex mapkey mapvalue
      else Ok (mapkey, mapvalue)
  end.

(** struct_vtproto.pb.go:1043-1211: the body of the loop of Struct.UnmarshalVT. *)
Definition Struct_step (dAtA : list Z) (m : Struct) (iNdEx : Z) : res Struct (Struct * Z) :=
  let preIndex := iNdEx in
  do r <- read_tag dAtA iNdEx m;
  let '(fieldNum, wireType, iNdEx) := r in
  if fieldNum =? 1 then
    if negb (wireType =? 2) then Err EWireType m else
    do r <- lift m (decodeLen false dAtA iNdEx);
    let (iNdEx, postIndex) := r in
    match m with
    | Struct_nil => Panic
    | Struct_new fields =>
        let m := Struct_new (Some (elems fields)) in
        do r <- lift m (entry_loop (S (length dAtA)) dAtA iNdEx postIndex [] Value_nil);
        let (mapkey, mapvalue) := r in
        Ok (Struct_new (Some (set_entry (elems fields) mapkey mapvalue)), postIndex)
    end
  else skip_field dAtA preIndex m.

(** struct_vtproto.pb.go:1438-1511: the body of the loop of ListValue.UnmarshalVT. *)
Definition ListValue_step (dAtA : list Z) (m : ListValue) (iNdEx : Z) : res ListValue (ListValue * Z) :=
  let preIndex := iNdEx in
  do r <- read_tag dAtA iNdEx m;
  let '(fieldNum, wireType, iNdEx) := r in
  if fieldNum =? 1 then
    if negb (wireType =? 2) then Err EWireType m else
    do r <- lift m (decodeLen false dAtA iNdEx);
    let (iNdEx, postIndex) := r in
    do buf <- orpanic (zslice dAtA iNdEx postIndex);
    match m with
    | ListValue_nil => Panic
    | ListValue_new values =>
        do m <- within (value_UnmarshalVT buf (Value_new Kind_nil))
                  (fun x => ListValue_new (Some (elems values ++ [x])));
        Ok (m, postIndex)
    end
  else skip_field dAtA preIndex m.
End Decode.

(** struct_vtproto.pb.go:1218-1433, 1039-1217, 1434-1517 UnmarshalVT of the three messages.  The
    fuel bounds the nesting of messages, hence the length of the input suffices. *)
Fixpoint value_unmarshal (n : nat) (dAtA : list Z) (m : Value) : res Value Value :=
  match n with
  | O => NoFuel
  | S n' => unmarshal (Value_step (struct_unmarshal n') (list_unmarshal n') dAtA) dAtA m
  end
with struct_unmarshal (n : nat) (dAtA : list Z) (m : Struct) : res Struct Struct :=
  match n with
  | O => NoFuel
  | S n' => unmarshal (Struct_step (value_unmarshal n') dAtA) dAtA m
  end
with list_unmarshal (n : nat) (dAtA : list Z) (m : ListValue) : res ListValue ListValue :=
  match n with
  | O => NoFuel
  | S n' => unmarshal (ListValue_step (value_unmarshal n') dAtA) dAtA m
  end.

(** [m.Fields[key]]. *)
Fixpoint get_entry {A} (l : list (list Z * A)) (key : list Z) : option A :=
  match l with
  | [] => None
  | (k', v) :: l' => if str_eqb key k' then Some v else get_entry l' key
  end.

Section Compare.
(** EqualVT of the sub-messages; [o] answers pointer comparisons at the position [path]. *)
Variable o : list step -> bool.
Variable value_EqualVT : list step -> Value -> Value -> bool.
Variable struct_EqualVT : list step -> Struct -> Struct -> bool.
Variable list_EqualVT : list step -> ListValue -> ListValue -> bool.

(** [if p, q := x, y; p != q { if p == nil { p = &structpb.Value{} } ... EqualVT }]
    (struct_vtproto.pb.go:157-167, 368-377). *)
Definition compare_values (path : list step) (p q : Value) : bool :=
  if ptr_eqb (o path) (Value_val p) (Value_val q) then true else
  value_EqualVT path (match p with Value_nil => Value_new Kind_nil | _ => p end)
                     (match q with Value_nil => Value_new Kind_nil | _ => q end).
(** struct_vtproto.pb.go:313-323. *)
Definition compare_structs (path : list step) (p q : Struct) : bool :=
  if ptr_eqb (o path) (Struct_val p) (Struct_val q) then true else
  struct_EqualVT path (match p with Struct_nil => Struct_new None | _ => p end)
                      (match q with Struct_nil => Struct_new None | _ => q end).
(** struct_vtproto.pb.go:342-352. *)
Definition compare_lists (path : list step) (p q : ListValue) : bool :=
  if ptr_eqb (o path) (ListValue_val p) (ListValue_val q) then true else
  list_EqualVT path (match p with ListValue_nil => ListValue_new None | _ => p end)
                    (match q with ListValue_nil => ListValue_new None | _ => q end).

(** struct_vtproto.pb.go:178-211 with 214-354 EqualVT of the wrappers: [this.Kind] against
    [that.Kind]; [w] is the comparison of the two wrapper pointers. *)
Definition Kind_EqualVT (path : list step) (k k' : ValueKind) : bool :=
  let w := o (SWrap 0 :: path) && val_eqb (Kind_val k) (Kind_val k') in
  match k, k' with
  | Kind_nil, Kind_nil => true
  | Value_NullValue x, Value_NullValue y => if w then true else if negb (x =? y) then false else true
  | Value_NumberValue x, Value_NumberValue y => if w then true else if negb (num_eqb KDouble x y) then false else true
  | Value_StringValue x, Value_StringValue y => if w then true else if negb (str_eqb x y) then false else true
  | Value_BoolValue x, Value_BoolValue y => if w then true else if negb (Bool.eqb x y) then false else true
  | Value_StructValue x, Value_StructValue y => if w then true else compare_structs (SField 0 :: path) x y
  | Value_ListValue x, Value_ListValue y => if w then true else compare_lists (SField 0 :: path) x y
  | _, _ => false
  end.
(** struct_vtproto.pb.go:172-212 Value.EqualVT. *)
Definition Value_equal (path : list step) (this that : Value) : bool :=
  if ptr_eqb (o path) (Value_val this) (Value_val that) then true else
  match this, that with
  | Value_new k, Value_new k' => Kind_EqualVT path k k'
  | _, _ => false
  end.
(** struct_vtproto.pb.go:143-170 Struct.EqualVT. *)
Definition Struct_equal (path : list step) (this that : Struct) : bool :=
  if ptr_eqb (o path) (Struct_val this) (Struct_val that) then true else
  match this, that with
  | Struct_new f, Struct_new f' =>
      if negb (zlen (elems f) =? zlen (elems f')) then false else
      forallb (fun e => match get_entry (elems f') (fst e) with
                        | Some vy => compare_values (SKey 0 (VStr (fst e)) :: path) (snd e) vy
                        | None => false
                        end) (elems f)
  | _, _ => false
  end.
(** struct_vtproto.pb.go:366-378: the loop over the elements from number [i]. *)
Fixpoint compare_elems (path : list step) (i : nat) (l l' : list Value) : bool :=
  match l, l' with
  | [], _ => true
  | vx :: l, vy :: l' => compare_values (SElem 0 i :: path) vx vy && compare_elems path (S i) l l'
  | _ :: _, [] => false
  end.
(** struct_vtproto.pb.go:356-380 ListValue.EqualVT. *)
Definition ListValue_equal (path : list step) (this that : ListValue) : bool :=
  if ptr_eqb (o path) (ListValue_val this) (ListValue_val that) then true else
  match this, that with
  | ListValue_new l, ListValue_new l' =>
      if negb (zlen (elems l) =? zlen (elems l')) then false else
      compare_elems path 0 (elems l) (elems l')
  | _, _ => false
  end.
End Compare.

(** EqualVT of the three messages; the fuel bounds the nesting. *)
Fixpoint value_equal (o : list step -> bool) (n : nat) (path : list step) (a b : Value) : bool :=
  match n with
  | O => false
  | S n' => Value_equal o (struct_equal o n') (list_equal o n') path a b
  end
with struct_equal (o : list step -> bool) (n : nat) (path : list step) (a b : Struct) : bool :=
  match n with
  | O => false
  | S n' => Struct_equal o (value_equal o n') path a b
  end
with list_equal (o : list step -> bool) (n : nat) (path : list step) (a b : ListValue) : bool :=
  match n with
  | O => false
  | S n' => ListValue_equal o (value_equal o n') path a b
  end.

(** struct_vtproto.pb.go:50-72 Value.CloneVT, 74-126 of the wrappers, 35-48 Struct.CloneVT,
    128-141 ListValue.CloneVT. *)
Fixpoint Value_CloneVT (m : Value) : Value :=
  match m with
  | Value_nil => Value_nil
  | Value_new k =>
      Value_new
        match k with
        | Kind_nil => Kind_nil
        | _ => Kind_CloneVT k
        end
  end
with Kind_CloneVT (k : ValueKind) : ValueKind :=
  match k with
  | Value_StructValue x => Value_StructValue (Struct_CloneVT x)
  | Value_ListValue x => Value_ListValue (ListValue_CloneVT x)
  | _ => k
  end
with Struct_CloneVT (m : Struct) : Struct :=
  match m with
  | Struct_nil => Struct_nil
  | Struct_new None => Struct_new None
  | Struct_new (Some rhs) => Struct_new (Some (map (fun e => (fst e, Value_CloneVT (snd e))) rhs))
  end
with ListValue_CloneVT (m : ListValue) : ListValue :=
  match m with
  | ListValue_nil => ListValue_nil
  | ListValue_new None => ListValue_new None
  | ListValue_new (Some rhs) => ListValue_new (Some (map Value_CloneVT rhs))
  end.

(** The methods of structpb.Value, Struct and ListValue (MarshalVT and MarshalVTStrict:
    382-398, 433-449, 603-618, 643-659, 694-710, 874-889). *)
Definition Value_helpers : helpers Value :=
  mkHelpers Value_SizeVT Value_MarshalToSizedBufferVT
    (fun strict m => marshal (match m with Value_nil => true | _ => false end) m Value_SizeVT (Value_MarshalToSizedBufferVT strict))
    (fun strict m => marshal_to m Value_SizeVT (Value_MarshalToSizedBufferVT strict))
    (fun dAtA => value_unmarshal (S (length dAtA)) dAtA)
    (fun o a b => value_equal o (S (S (Nat.max (vdepth (Value_val a)) (vdepth (Value_val b))))) [] a b) Value_CloneVT.
Definition Struct_helpers : helpers Struct :=
  mkHelpers Struct_SizeVT Struct_MarshalToSizedBufferVT
    (fun strict m => marshal (match m with Struct_nil => true | _ => false end) m Struct_SizeVT (Struct_MarshalToSizedBufferVT strict))
    (fun strict m => marshal_to m Struct_SizeVT (Struct_MarshalToSizedBufferVT strict))
    (fun dAtA => struct_unmarshal (S (length dAtA)) dAtA)
    (fun o a b => struct_equal o (S (S (Nat.max (vdepth (Struct_val a)) (vdepth (Struct_val b))))) [] a b) Struct_CloneVT.
Definition ListValue_helpers : helpers ListValue :=
  mkHelpers ListValue_SizeVT ListValue_MarshalToSizedBufferVT
    (fun strict m => marshal (match m with ListValue_nil => true | _ => false end) m ListValue_SizeVT (ListValue_MarshalToSizedBufferVT strict))
    (fun strict m => marshal_to m ListValue_SizeVT (ListValue_MarshalToSizedBufferVT strict))
    (fun dAtA => list_unmarshal (S (length dAtA)) dAtA)
    (fun o a b => list_equal o (S (S (Nat.max (vdepth (ListValue_val a)) (vdepth (ListValue_val b))))) [] a b) ListValue_CloneVT.
