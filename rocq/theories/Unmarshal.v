(** Model of /repo/features/unmarshal/unmarshal.go: what the generated
    UnmarshalVT and UnmarshalVTUnsafe compute. *)
From Coq Require Import ZArith List Bool.
From Verif Require Import Base Schema Value Helpers.
Import ListNotations.
Open Scope Z_scope.

(** unmarshal.go:687 and :265: [int32((uint32(v) >> 1) ^ uint32(((v&1)<<31)>>31))]
    on an int32 [v]. *)
Definition unzigzag32 (v : Z) : Z :=
  s32 (Z.lxor (Z.shiftr (u32 v) 1) (u32 (Z.shiftr (s32 (Z.shiftl (Z.land v 1) 31)) 31))).
(** unmarshal.go:700-706 and :270-271: [(v >> 1) ^ uint64((int64(v&1)<<63)>>63)]
    on a uint64 [v], then converted to int64. *)
Definition unzigzag64 (v : Z) : Z :=
  s64 (Z.lxor (Z.shiftr v 1) (u64 (Z.shiftr (s64 (Z.shiftl (Z.land v 1) 63)) 63))).

(** unmarshal.go:100-114 decodeFixed32 / decodeFixed64 (n = 4, 8), before the
    conversion to the type of the variable. *)
Definition decodeFixed (n : nat) (data : list Z) (i : Z) : res unit (Z * Z) :=
  if zlen data <? s64 (i + Z.of_nat n) then Err EUnexpectedEOF tt else
  do bs <- orpanic (zslice data i (i + Z.of_nat n));
  Ok (le_get bs, i + Z.of_nat n).

(** The conversion to the Go type of a varint variable of kind [k]
    (FieldGoType, generatedfile.go:73-85; bool uses an [int] temporary,
    unmarshal.go:407,181; sint64 a [uint64], unmarshal.go:698,268). *)
Definition varint_conv (k : kind) : Z -> Z :=
  match k with
  | KInt64 | KBool => s64
  | KInt32 | KEnum | KSint32 => s32
  | KUint32 => u32
  | _ => u64
  end.

(** What is done with a decoded varint before it is stored: [v != 0] for bool
    (unmarshal.go:413,183), zig-zag for sint32/sint64, nothing otherwise. *)
Definition varint_post (k : kind) (z : Z) : Z :=
  match k with
  | KBool => if z =? 0 then 0 else 1
  | KSint32 => unzigzag32 z
  | KSint64 => unzigzag64 z
  | _ => z
  end.

(** The conversion of a decoded fixed-width number: sfixed kinds are signed,
    float kinds keep the bits (Float32frombits/Float64frombits). *)
Definition fixed_conv (k : kind) (z : Z) : Z :=
  match k with
  | KSfixed32 => s32 z
  | KSfixed64 => s64 z
  | _ => z
  end.

(** Read one number of kind [k]: the first lines of the numeric cases of
    unmarshal.go:292-713 ([acc] = 0) and of mapField, unmarshal.go:161-271, where
    int64/uint64/int32/uint32/enum varints are accumulated into the existing
    variable ([acc] is its old value) and the other kinds use a fresh one. *)
Definition decodeNumber (k : kind) (acc : Z) (data : list Z) (i : Z) : res unit (Z * Z) :=
  match classify k with
  | CFix64 => do r <- decodeFixed 8 data i; Ok (fixed_conv k (fst r), snd r)
  | CFix32 => do r <- decodeFixed 4 data i; Ok (fixed_conv k (fst r), snd r)
  | CVar => decodeVarint (varint_conv k) acc data i
  | _ =>
      do r <- decodeVarint (varint_conv k) 0 data i;
      Ok (varint_post k (fst r), snd r)
  end.

(** A length prefix and its checks, returning (iNdEx, postIndex).
    [via_uint64]: the length is read as uint64 and converted with int()
    (strings, unmarshal.go:423-435 and 185-197; map bytes, 233-245); otherwise
    it is accumulated in an int (483-494, 578-589, 216-227, 729-740). *)
Definition decodeLen (via_uint64 : bool) (data : list Z) (i : Z) : res unit (Z * Z) :=
  do r <- (if via_uint64
           then do r <- decodeVarint u64 0 data i; Ok (s64 (fst r), snd r)
           else decodeVarint s64 0 data i);
  let (len, i) := r in
  if len <? 0 then Err EInvalidLength tt else
  let post := s64 (i + len) in
  if post <? 0 then Err EInvalidLength tt else
  if zlen data <? post then Err EUnexpectedEOF tt else
  Ok (i, post).

(** Equality of map keys (Go [==] on bool, integers, strings). *)
Definition key_eqb (a b : val) : bool :=
  match a, b with
  | VInt x, VInt y => x =? y
  | (VStr s | VRefS _ s), (VStr t | VRefS _ t) =>
      if list_eq_dec Z.eq_dec s t then true else false
  | _, _ => false
  end.

(** Go map assignment [m[k] = v].  A new key may appear anywhere in later
    iterations; the model appends it (theorems treat maps as finite maps). *)
Fixpoint map_set (l : list (val * val)) (k v : val) : list (val * val) :=
  match l with
  | [] => [(k, v)]
  | (k', v') :: l' => if key_eqb k k' then (k', v) :: l' else (k', v') :: map_set l' k v
  end.

(** Update position [n] of a list. *)
Fixpoint list_set {A} (l : list A) (n : nat) (x : A) : list A :=
  match l, n with
  | [], _ => []
  | _ :: l', O => x :: l'
  | y :: l', S n' => y :: list_set l' n' x
  end.

(** Assignment to a struct member; a nil receiver panics. *)
Definition set_slot (v : val) (i : nat) (x : val) : option val :=
  match v with
  | VMsg s u h => Some (VMsg (list_set s i x) u h)
  | _ => None
  end.

(** Read of a struct member; a nil receiver panics. *)
Definition get_slot (v : val) (i : nat) : option val :=
  match v with VMsg s _ _ => Some (slot s i) | _ => None end.

(** [m.unknownFields = append(m.unknownFields, bs...)]. *)
Definition add_unknown (v : val) (bs : list Z) : option val :=
  match v with VMsg s u h => Some (VMsg s (u ++ bs) h) | _ => None end.

(** How a call allocates messages and builds strings and byte slices.  The
    argument is the value of iNdEx at that point of the call.
    - [ue_alloc]: what FromVTPool returns (any earlier returned object, or a new
      one: sync.Pool is free to choose);
    - [ue_str], [ue_bytes]: a string / byte slice with the given content, copied
      (UnmarshalVT) or aliasing the input (UnmarshalVTUnsafe). *)
Record uenv : Type := mkEnv {
  ue_alloc : Z -> nat -> val;
  ue_str : Z -> list Z -> val;
  ue_bytes : Z -> list Z -> val }.

(** Store the outcome of a nested UnmarshalVT call: its target is already part
    of the message, so also a failed call leaves its partial result behind. *)
Definition nest (r : res val val) (put : val -> option val) : res val val :=
  match r with
  | Ok x => match put x with Some v => Ok v | None => Panic end
  | Err e x => match put x with Some v => Err e v | None => Panic end
  | Panic => Panic
  | NoFuel => NoFuel
  end.

(** The same when the target is a local variable, lost on error. *)
Definition drop_state {P A} (p : P) (r : res A A) : res P A :=
  match r with Ok x => Ok x | Err e _ => Err e p | Panic => Panic | NoFuel => NoFuel end.

Section Unmarshal.
Variable sc : schema.
(** The UnmarshalVT methods one level down: iNdEx of the payload in the current
    buffer, message, payload, target. *)
Variable rec : Z -> nat -> list Z -> val -> res val val.
Variable env : uenv.

(** unmarshal.go:56-81 decodeMessage.  The state left behind by a failing
    upstream proto.Unmarshal is not modelled (the old target is kept). *)
Definition decodeMessage (i : Z) (m : nat) (buf : list Z) (target : val) : res val val :=
  if md_foreign (md_of sc m) then
    match target with
    | VNil => Panic
    | _ => match up_dec (sc_up sc) m buf with
           | Some v => Ok v
           | None => Err EUpstream target
           end
    end
  else rec i m buf target.

(** The stores [m.F = &Wrapper{F: x}], [m.F = append(m.F, x)], [m.F = x],
    [m.F = &x] shared by all non-message cases of fieldItem (e.g.
    unmarshal.go:296-306). *)
Definition store (f : fdesc) (lbl : label) (k : kind) (x : val) (v : val) : option val :=
  match lbl with
  | LOneof => set_slot v (f_slot f) (VOneof (f_num f) x)
  | LRepeated _ =>
      match get_slot v (f_slot f) with
      | Some old => set_slot v (f_slot f) (VList (vlist old ++ [x]))
      | None => None
      end
  | LImplicit => set_slot v (f_slot f) x
  | LOptional | LRequired =>
      set_slot v (f_slot f) (match classify k with CByt => x | _ => VPtr x end)
  end.

(** unmarshal.go:160-273 mapField: decode the key or the value of a map entry
    into the variable of current value [cur]. *)
Definition mapField (k : kind) (cur : val) (data : list Z) (i : Z) : res unit (val * Z) :=
  match classify k with
  | CStr =>
      do r <- decodeLen true data i;
      let (i, post) := r in
      do s <- orpanic (zslice data i post);
      Ok (ue_str env i s, post)
  | CByt =>
      do r <- decodeLen true data i;
      let (i, post) := r in
      do s <- orpanic (zslice data i post);
      Ok (ue_bytes env i s, post)
  | CMsg m =>
      do r <- decodeLen false data i;
      let (i, post) := r in
      do s <- orpanic (zslice data i post);
      do x <- drop_state tt (decodeMessage i m s (new_msg (md_of sc m)));
      Ok (x, post)
  | CGrp _ => Ok (cur, i)
  | _ => do r <- decodeNumber k (vint cur) data i; Ok (VInt (fst r), snd r)
  end.

(** unmarshal.go:522-547: the loop over one map entry.  Returns mapkey, mapvalue
    and iNdEx. *)
Fixpoint map_loop (fuel : nat) (kk vk : kind) (data : list Z) (i post : Z) (key value : val)
  : res unit (val * val * Z) :=
  match fuel with
  | O => NoFuel
  | S fuel' =>
      if i <? post then
        let entryPreIndex := i in
        do r <- decodeVarint u64 0 data i;
        let (wire, i) := r in
        let fieldNum := s32 (Z.shiftr wire 3) in
        if fieldNum =? 1 then
          do r <- mapField kk key data i;
          map_loop fuel' kk vk data (snd r) post (fst r) value
        else if fieldNum =? 2 then
          do r <- mapField vk value data i;
          map_loop fuel' kk vk data (snd r) post key (fst r)
        else
          let i := entryPreIndex in
          do rest <- orpanic (zslice data i (zlen data));
          do skippy <- Skip rest;
          if (skippy <? 0) || (s64 (i + skippy) <? 0) then Err EInvalidLength tt else
          if post <? s64 (i + skippy) then Err EUnexpectedEOF tt else
          map_loop fuel' kk vk data (s64 (i + skippy)) post key value
      else Ok (key, value, i)
  end.

(** Go zero value of the variables mapkey and mapvalue (unmarshal.go:520-521). *)
Definition map_zero (k : kind) : val :=
  match classify k with
  | CStr => VStr []
  | CByt | CMsg _ | CGrp _ => VNil
  | _ => VInt 0
  end.

(** unmarshal.go:482-494, 509-548, 575: a map field. *)
Definition map_item (f : fdesc) (kk vk : kind) (data : list Z) (i : Z) (v : val)
  : res val (val * Z) :=
  do r <- lift v (decodeLen false data i);
  let (i, post) := r in
  do old <- orpanic (get_slot v (f_slot f));
  do v1 <- orpanic (set_slot v (f_slot f) (VMap (vmap old)));
  do r <- lift v1 (map_loop (S (length data)) kk vk data i post (map_zero kk) (map_zero vk));
  let '(key, value, _) := r in
  do v2 <- orpanic (set_slot v1 (f_slot f) (VMap (map_set (vmap old) key value)));
  Ok (v2, post).

(** Extend a repeated message field by one element and return it together with
    the receiver's hidden elements afterwards (unmarshal.go:550-561).  Spare
    capacity that holds nil behaves like no spare capacity. *)
Definition list_grow (md : mdesc) (m : nat) (hid : list (list val)) (i : nat)
  : val * list (list val) :=
  if md_pool md then
    match nth i hid [] with
    | [] => (new_msg (md_of sc m), hid)
    | x :: rest =>
        (match x with VNil => new_msg (md_of sc m) | _ => x end, list_set hid i rest)
    end
  else (new_msg (md_of sc m), hid).

(** unmarshal.go:482-508, 549-575: a singular, repeated or oneof message field. *)
Definition message_item (md : mdesc) (f : fdesc) (lbl : label) (m : nat)
  (data : list Z) (i : Z) (v : val) : res val (val * Z) :=
  do r <- lift v (decodeLen false data i);
  let (i, post) := r in
  do buf <- orpanic (zslice data i post);
  let pooled := md_pool md && md_pool (md_of sc m) in
  let fresh := if pooled then ue_alloc env i m else new_msg (md_of sc m) in
  match v with
  | VMsg s u h =>
      let old := slot s (f_slot f) in
      do v' <-
        (match lbl with
         | LOneof =>
             let keep := match old with VOneof n x => if n =? f_num f then Some x else None | _ => None end in
             match keep with
             | Some x =>
                 nest (decodeMessage i m buf x)
                      (fun x' => set_slot v (f_slot f) (VOneof (f_num f) x'))
             | None =>
                 do x' <- drop_state v (decodeMessage i m buf fresh);
                 orpanic (set_slot v (f_slot f) (VOneof (f_num f) x'))
             end
         | LRepeated _ =>
             let (target, h') := list_grow md m h (f_slot f) in
             nest (decodeMessage i m buf target)
                  (fun x' => Some (VMsg (list_set s (f_slot f) (VList (vlist old ++ [x']))) u h'))
         | _ =>
             let target := match old with VNil => fresh | _ => old end in
             nest (decodeMessage i m buf target) (fun x' => set_slot v (f_slot f) x')
         end);
      Ok (v', post)
  | _ => Panic
  end.

(** unmarshal.go:462-481: a group field.  [wire] is the tag of the group start,
    which the generated code tests instead of the tag it has just read. *)
Fixpoint group_loop (fuel : nat) (f : fdesc) (m : nat) (wire : Z) (data : list Z)
  (groupStart i : Z) (v : val) : res val (val * Z) :=
  match fuel with
  | O => NoFuel
  | S fuel' =>
      let maybeGroupEnd := i in
      do r <- lift v (decodeVarint u64 0 data i);
      let (groupFieldWire, i) := r in
      let groupWireType := Z.land wire 7 in
      if groupWireType =? 4 then
        do buf <- orpanic (zslice data groupStart maybeGroupEnd);
        do old <- orpanic (get_slot v (f_slot f));
        do v' <- nest (decodeMessage groupStart m buf old) (fun x' => set_slot v (f_slot f) x');
        Ok (v', i)
      else
        do rest <- orpanic (zslice data i (zlen data));
        do skippy <- lift v (Skip rest);
        if (skippy <? 0) || (s64 (i + skippy) <? 0) then Err EInvalidLength v else
        group_loop fuel' f m wire data groupStart (s64 (i + skippy)) v
  end.

(** The kinds whose proto3 singular fields are decoded in place: [m.F = 0]
    followed by decodeVarint or decodeFixed of ["m.F"] (unmarshal.go:331-332,
    348-349, 365-366, 382-383, 399-400, 626-627, 643-644, 660-661, 677-678); the
    other kinds go through a local variable. *)
Definition in_place (lbl : label) (k : kind) : bool :=
  match lbl with
  | LImplicit =>
      match k with
      | KInt64 | KUint64 | KInt32 | KUint32 | KEnum
      | KFixed64 | KFixed32 | KSfixed64 | KSfixed32 => true
      | _ => false
      end
  | _ => false
  end.

(** What the varint loop (see read_varint) has accumulated when it fails. *)
Fixpoint varint_left (fuel : nat) (w : Z -> Z) (data : list Z) (i shift acc : Z) : Z :=
  match fuel with
  | O => acc
  | S fuel' =>
      if 64 <=? shift then acc else
      match zget data i with
      | None => acc
      | Some b =>
          let acc := Z.lor acc (w (Z.shiftl (Z.land b 127) shift)) in
          if b <? 128 then acc else varint_left fuel' w data (i + 1) (shift + 7) acc
      end
  end.

(** What decoding a number in place has written to the field when it fails: 0 and
    the bits of a varint read so far, or 0 (a fixed-width number is assigned only
    after the length check, unmarshal.go:100-114). *)
Definition number_start (f : fdesc) (lbl : label) (k : kind) (data : list Z) (i : Z) (v : val) : option val :=
  if in_place lbl k then
    set_slot v (f_slot f)
      (VInt (match classify k with
             | CVar => varint_left 11 (varint_conv k) data i 0 0
             | _ => 0
             end))
  else Some v.

(** unmarshal.go:286-714 fieldItem, for a non-map field.  (A field decoded in
    place is written with every byte read; the model writes what a failing read
    leaves, and on success the number.) *)
Definition fieldItem (md : mdesc) (f : fdesc) (lbl : label) (k : kind) (wire : Z)
  (data : list Z) (i : Z) (v : val) : res val (val * Z) :=
  match classify k with
  | CStr =>
      do r <- lift v (decodeLen true data i);
      let (i, post) := r in
      do s <- orpanic (zslice data i post);
      do v' <- orpanic (store f lbl k (ue_str env i s) v);
      Ok (v', post)
  | CByt =>
      do r <- lift v (decodeLen false data i);
      let (i, post) := r in
      do s <- orpanic (zslice data i post);
      do v' <- orpanic (store f lbl k (ue_bytes env i s) v);
      Ok (v', post)
  | CMsg m => message_item md f lbl m data i v
  | CGrp m => group_loop (S (length data)) f m wire data i i v
  | _ =>
      do v <- orpanic (number_start f lbl k data i v);
      do r <- lift v (decodeNumber k 0 data i);
      do v' <- orpanic (store f lbl k (VInt (fst r)) v);
      Ok (v', snd r)
  end.

(** unmarshal.go:770-772: [for iNdEx < postIndex { fieldItem }].  The
    pre-allocation of 742-768 has no effect on values, except that a failing call may leave
    an empty list instead of nil; HeapDec.v has it. *)
Fixpoint packed_loop (fuel : nat) (md : mdesc) (f : fdesc) (lbl : label) (k : kind) (wire : Z)
  (data : list Z) (i post : Z) (v : val) : res val (val * Z) :=
  match fuel with
  | O => NoFuel
  | S fuel' =>
      if i <? post then
        do r <- fieldItem md f lbl k wire data i v;
        packed_loop fuel' md f lbl k wire data (snd r) post (fst r)
      else Ok (v, i)
  end.

(** [field.Desc.IsList() && wireType != protowire.BytesType] (unmarshal.go:725). *)
Definition packable (lbl : label) (k : kind) : bool :=
  match lbl with LRepeated _ => negb (ProtoWireType k =? 2) | _ => false end.

(** unmarshal.go:716-781 field (without the required bit). *)
Definition um_field (md : mdesc) (f : fdesc) (wire : Z) (data : list Z) (i : Z) (v : val)
  : res val (val * Z) :=
  let wireType := Z.land wire 7 in
  match f_ty f with
  | TMap kk vk =>
      if wireType =? 2 then map_item f kk vk data i v else Err EWireType v
  | TField lbl k =>
      if packable lbl k then
        if wireType =? ProtoWireType k then fieldItem md f lbl k wire data i v
        else if wireType =? 2 then
          do r <- lift v (decodeLen false data i);
          let (i, post) := r in
          packed_loop (S (length data)) md f lbl k wire data i post v
        else Err EWireType v
      else
        if wireType =? ProtoWireType k then fieldItem md f lbl k wire data i v
        else Err EWireType v
  end.

(** message.Desc.RequiredNumbers() (unmarshal.go:808). *)
Definition required_numbers (md : mdesc) : list Z :=
  map f_num (filter is_required (md_fields md)).

(** unmarshal.go:784-789 and 873-878: index of a number in RequiredNumbers. *)
Fixpoint field_bit (l : list Z) (num : Z) : nat :=
  match l with
  | [] => 0
  | x :: l' => if x =? num then 0 else S (field_bit l' num)
  end.

(** unmarshal.go:812: [var hasFields [1+(required.Len()-1)/64]uint64]. *)
Definition has_init (md : mdesc) : list Z :=
  match required_numbers md with
  | [] => []
  | l => repeat 0 (1 + (length l - 1) / 64)
  end.

(** unmarshal.go:793: [hasFields[bit/64] |= 1 << (bit%64)]. *)
Definition has_set (md : mdesc) (f : fdesc) (has : list Z) : list Z :=
  if is_required f then
    let bit := field_bit (required_numbers md) (f_num f) in
    list_set has (bit / 64)
      (Z.lor (nth (bit / 64) has 0) (Z.shiftl 1 (Z.of_nat (bit mod 64))))
  else has.

(** unmarshal.go:869-885: the checks after the loop. *)
Definition has_all (md : mdesc) (has : list Z) : bool :=
  forallb (fun f =>
    let bit := field_bit (required_numbers md) (f_num f) in
    negb (Z.land (nth (bit / 64) has 0) (Z.shiftl 1 (Z.of_nat (bit mod 64))) =? 0))
    (filter is_required (md_fields md)).

(** unmarshal.go:845-851. *)
Definition in_ext (md : mdesc) (num : Z) : bool :=
  existsb (fun r => (fst r <=? num) && (num <? snd r)) (md_ext md).

(** unmarshal.go:832-866: the default case. *)
Definition um_unknown (m : nat) (num : Z) (data : list Z) (preIndex : Z) (v : val)
  : res val (val * Z) :=
  let md := md_of sc m in
  let i := preIndex in
  do rest <- orpanic (zslice data i (zlen data));
  do skippy <- lift v (Skip rest);
  if (skippy <? 0) || (s64 (i + skippy) <? 0) then Err EInvalidLength v else
  if zlen data <? s64 (i + skippy) then Err EUnexpectedEOF v else
  do raw <- orpanic (zslice data i (s64 (i + skippy)));
  if in_ext md num then
    match v with
    | VMsg _ _ _ =>
        match up_ext (sc_up sc) m raw with
        | Some v' => Ok (v', s64 (i + skippy))
        | None => Err EUpstream v
        end
    | _ => Panic
    end
  else if md_keep md then
    do v' <- orpanic (add_unknown v raw); Ok (v', s64 (i + skippy))
  else Ok (v, s64 (i + skippy)).

(** unmarshal.go:817-866: one iteration of the message loop. *)
Definition um_step (m : nat) (data : list Z) (i : Z) (v : val) (has : list Z)
  : res val (val * Z * list Z) :=
  let md := md_of sc m in
  let preIndex := i in
  do r <- lift v (decodeVarint u64 0 data i);
  let (wire, i) := r in
  let fieldNum := s32 (Z.shiftr wire 3) in
  let wireType := Z.land wire 7 in
  if wireType =? 4 then Err EWireType v else
  if fieldNum <=? 0 then Err EIllegalTag v else
  match find_field fieldNum (md_fields md) with
  | Some f =>
      do r <- um_field md f wire data i v;
      Ok (fst r, snd r, has_set md f has)
  | None =>
      do r <- um_unknown m fieldNum data preIndex v;
      Ok (fst r, snd r, has)
  end.

(** unmarshal.go:816-867: the message loop. *)
Fixpoint um_loop (fuel : nat) (m : nat) (data : list Z) (i : Z) (v : val) (has : list Z)
  : res val (val * Z * list Z) :=
  match fuel with
  | O => NoFuel
  | S fuel' =>
      if i <? zlen data then
        do r <- um_step m data i v has;
        let '(v, i, has) := r in
        um_loop fuel' m data i v has
      else Ok (v, i, has)
  end.

(** unmarshal.go:810-891: body of UnmarshalVT. *)
Definition um_body (m : nat) (data : list Z) (v : val) : res val val :=
  let md := md_of sc m in
  do r <- um_loop (S (length data)) m data 0 v (has_init md);
  let '(v, i, has) := r in
  if negb (has_all md has) then Err ERequired v else
  if zlen data <? i then Err EUnexpectedEOF v else
  Ok v.
End Unmarshal.

(** UnmarshalVT outside of pooling (or with empty pools): strings and byte
    slices are copied, messages newly allocated. *)
Definition safe_env (sc : schema) : uenv :=
  mkEnv (fun _ m => new_msg (md_of sc m)) (fun _ s => VStr s) (fun _ s => VBytes s).

(** Recursion through sub-messages; the payload of a sub-message is shorter than
    the input, so the length of the input bounds the depth. *)
Fixpoint um_msg (sc : schema) (n : nat) (m : nat) (data : list Z) (v : val) : res val val :=
  match n with
  | O => NoFuel
  | S n' => um_body sc (fun _ => um_msg sc n') (safe_env sc) m data v
  end.

(** [func (m *T) UnmarshalVT(dAtA []byte) error]: the receiver after the call. *)
Definition UnmarshalVT (sc : schema) (m : nat) (data : list Z) (v : val) : res val val :=
  um_msg sc (S (length data)) m data v.
