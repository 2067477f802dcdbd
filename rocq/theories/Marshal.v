(** Model of /repo/features/marshal/marshalto.go: what the generated MarshalVT
    family computes.  The generated code writes backwards: the state is the
    buffer [dAtA] and the index [i] of the first byte written so far. *)
From Coq Require Import ZArith List Bool.
From Verif Require Import Base Schema Value Helpers Size.
Import ListNotations.
Open Scope Z_scope.

(** [dAtA] and [i]. *)
Definition mst : Type := (list Z * Z)%type.
Definition mres : Type := res unit mst.

(** [i--; dAtA[i] = b] (marshalto.go:78-79, 96-101). *)
Definition put_byte (b : Z) (st : mst) : mres :=
  let (buf, i) := st in
  let i := i - 1 in
  do buf <- orpanic (zset buf i b);
  Ok (buf, i).

(** [i -= len(bs); copy(dAtA[i:], bs)] (marshalto.go:103-104, 337-338, 604-605). *)
Definition put_bytes (bs : list Z) (st : mst) : mres :=
  let (buf, i) := st in
  let i := i - zlen bs in
  do buf <- orpanic (zcopy buf i bs);
  Ok (buf, i).

(** [i -= n; binary.LittleEndian.PutUintXX(dAtA[i:], v)] with n = 8 or 4
    (marshalto.go:54-62); PutUintXX panics when fewer than n bytes are left. *)
Definition put_fixed (n : nat) (v : Z) (st : mst) : mres :=
  let (buf, i) := st in
  let i := i - Z.of_nat n in
  if zlen buf <? i + Z.of_nat n then Panic else
  do buf <- orpanic (zcopy buf i (le_put n v));
  Ok (buf, i).

(** marshalto.go:54-57 encodeFixed64 and :59-62 encodeFixed32; the argument is
    converted to uint64 / uint32. *)
Definition encodeFixed64 (v : Z) (st : mst) : mres := put_fixed 8 (u64 v) st.
Definition encodeFixed32 (v : Z) (st : mst) : mres := put_fixed 4 (u32 v) st.

(** marshalto.go:64-66 encodeVarint; [v] is already converted to uint64. *)
Definition encodeVarint (v : Z) (st : mst) : mres := EncodeVarint (fst st) (snd st) v.

(** marshalto.go:72-76: the key bytes, computed by the generator. *)
Fixpoint key_bytes (fuel : nat) (x : Z) : list Z :=
  match fuel with
  | O => []
  | S fuel' =>
      if 127 <? x then Z.lor 128 (Z.land x 127) :: key_bytes fuel' (Z.shiftr x 7) else [x]
  end.

(** Run operations one after the other. *)
Fixpoint run_all (l : list (mst -> mres)) (st : mst) : mres :=
  match l with
  | [] => Ok st
  | f :: l' => do st <- f st; run_all l' st
  end.

(** marshalto.go:68-81 encodeKey: stores the key bytes from the last to the first. *)
Definition encodeKey (num wt : Z) (st : mst) : mres :=
  let x := Z.lor (u32 (Z.shiftl (u32 num) 3)) (u32 wt) in
  run_all (map put_byte (rev (key_bytes 5 x))) st.

(** [i--; if b { dAtA[i] = 1 } else { dAtA[i] = 0 }] (marshalto.go:96-101). *)
Definition encodeBool (v : Z) (st : mst) : mres :=
  put_byte (if v =? 0 then 0 else 1) st.

(** [(uint32(x) << 1) ^ uint32((x >> 31))] (marshalto.go:107,445,459,464,...). *)
Definition zigzag32 (x : Z) : Z := Z.lxor (u32 (Z.shiftl (u32 x) 1)) (u32 (Z.shiftr x 31)).
(** [(uint64(x) << 1) ^ uint64((x >> 63))] (marshalto.go:109,489,503,508,...). *)
Definition zigzag64 (x : Z) : Z := Z.lxor (u64 (Z.shiftl (u64 x) 1)) (u64 (Z.shiftr x 63)).

(** The zig-zag expression by kind. *)
Definition zigzag (k : kind) (x : Z) : Z :=
  match k with KSint32 => zigzag32 x | _ => zigzag64 x end.

(** The scalar argument of encodeVarint for the packed forward loops:
    [uint64(num)] (marshalto.go:204-207) or the zig-zag value. *)
Definition varint_arg (k : kind) (x : Z) : Z :=
  match classify k with CZig => zigzag k x | _ => u64 x end.

Section Marshal.
Variable sc : schema.
(** The MarshalToSizedBufferVT methods one level down: they get a buffer and
    return the buffer they wrote to and the number of bytes written. *)
Variable rec : nat -> val -> list Z -> res unit (list Z * Z).

(** A nested call [size, err := x.MarshalToSizedBufferVT(dAtA[:i])] followed by
    [i -= size] (marshalto.go:613-622, 710-714, 723-735): the callee sees, and
    shares, the first [i] bytes of the buffer. *)
Definition sub_call (callee : list Z -> res unit (list Z * Z)) (st : mst)
  : res unit (mst * Z) :=
  let (buf, i) := st in
  do pre <- orpanic (zslice buf 0 i);
  do r <- callee pre;
  let (pre', size) := r in
  Ok ((pre' ++ skipn (Z.to_nat i) buf, i - size), size).

(** marshalto.go:720-748 marshalBackward. *)
Definition marshalBackward (varInt : bool) (m : nat) (v : val) (st : mst) : mres :=
  if md_foreign (md_of sc m) then
    if up_init (sc_up sc) m v then
      let encoded := up_enc (sc_up sc) m v in
      do st <- put_bytes encoded st;
      if varInt then encodeVarint (zlen encoded) st else Ok st
    else Err EUpstream tt
  else
    do r <- sub_call (rec m v) st;
    let (st, size) := r in
    if varInt then encodeVarint size st else Ok st.

(** The payload of one value: marshalto.go:83-113 mapField, and the same
    statements inside the branches of marshalto.go:136-518. *)
Definition encodeValue (k : kind) (v : val) (st : mst) : mres :=
  match classify k with
  | CFix64 => encodeFixed64 (vint v) st
  | CFix32 => encodeFixed32 (vint v) st
  | CVar => encodeVarint (u64 (vint v)) st
  | CBool => encodeBool (vint v) st
  | CStr | CByt =>
      do st <- put_bytes (vbytes v) st; encodeVarint (zlen (vbytes v)) st
  | CZig => encodeVarint (zigzag k (vint v)) st
  | CMsg m => marshalBackward true m v st
  | CGrp m => marshalBackward false m v st
  end.

(** A value followed (i.e. preceded in the buffer) by its key.  Groups are framed
    by an end key and a start key (marshalto.go:360-363). *)
Definition encodeTagged (num : Z) (k : kind) (v : val) (st : mst) : mres :=
  match classify k with
  | CGrp m =>
      do st <- encodeKey num 4 st;
      do st <- marshalBackward false m v st;
      encodeKey num 3 st
  | _ =>
      do st <- encodeValue k v st;
      encodeKey num (ProtoWireType k) st
  end.

(** marshalto.go:382-400: one iteration of the map loop. *)
Definition encodeEntry (num : Z) (kk vk : kind) (e : val * val) (st : mst) : mres :=
  let baseI := snd st in
  do st <- encodeValue vk (snd e) st;
  do st <- encodeKey 2 (ProtoWireType vk) st;
  do st <- encodeValue kk (fst e) st;
  do st <- encodeKey 1 (ProtoWireType kk) st;
  do st <- encodeVarint (baseI - snd st) st;
  encodeKey num 2 st.

(** The forward loop of packed varints: [for _, num := range m.F { ... }]
    (marshalto.go:203-216, 443-453, 487-497), writing from index [j]. *)
Fixpoint packed_fwd (k : kind) (l : list val) (buf : list Z) (j : Z) : res unit (list Z * Z) :=
  match l with
  | [] => Ok (buf, j)
  | e :: l' =>
      let x := varint_arg k (vint e) in
      do r <- varint_loop (varint_fuel x) buf j x;
      packed_fwd k l' (fst r) (snd r)
  end.

(** [pksize]: marshalto.go:194-197, 436-439, 480-483. *)
Definition packed_total (k : kind) (l : list val) : Z :=
  sum_over (fun e => match classify k with
                     | CZig => SizeOfZigzag (u64 (vint e))
                     | _ => SizeOfVarint (u64 (vint e))
                     end) l.

(** The [packed] branches of marshalto.go:137-518. *)
Definition encodePacked (num : Z) (k : kind) (l : list val) (st : mst) : mres :=
  match classify k with
  | CFix64 =>
      do st <- run_all (map (fun e => encodeFixed64 (vint e)) (rev l)) st;
      do st <- encodeVarint (zlen l * 8) st;
      encodeKey num 2 st
  | CFix32 =>
      do st <- run_all (map (fun e => encodeFixed32 (vint e)) (rev l)) st;
      do st <- encodeVarint (zlen l * 4) st;
      encodeKey num 2 st
  | CBool =>
      do st <- run_all (map (fun e => encodeBool (vint e)) (rev l)) st;
      do st <- encodeVarint (zlen l) st;
      encodeKey num 2 st
  | CVar | CZig =>
      let (buf, i) := st in
      let total := packed_total k l in
      let i := i - total in
      do r <- packed_fwd k l buf i;
      do st <- encodeVarint total (fst r, i);
      encodeKey num 2 st
  | _ => Ok st
  end.

(** marshalto.go:115-532 field.  [v] is the struct member (for a oneof member:
    the member inside the wrapper). *)
Definition marshal_field (f : fdesc) (v : val) (st : mst) : mres :=
  match f_ty f with
  | TMap kk vk =>
      if 0 <? zlen (vmap v)
      then run_all (map (encodeEntry (f_num f) kk vk) (vmap v)) st else Ok st
  | TField lbl k =>
      match lbl with
      | LRepeated true =>
          if 0 <? zlen (vlist v) then encodePacked (f_num f) k (vlist v) st else Ok st
      | LRepeated false =>
          if 0 <? zlen (vlist v)
          then run_all (map (encodeTagged (f_num f) k) (rev (vlist v))) st else Ok st
      | LRequired =>
          if is_nil v then Err ERequired tt else encodeTagged (f_num f) k (deref v) st
      | LOptional =>
          if is_nil v then Ok st else encodeTagged (f_num f) k (deref v) st
      | LImplicit =>
          if implicit_set k v then encodeTagged (f_num f) k v st else Ok st
      | LOneof =>
          match classify k with
          | CMsg _ =>
              if is_nil v then
                do st <- encodeVarint 0 st; encodeKey (f_num f) (ProtoWireType k) st
              else encodeTagged (f_num f) k v st
          | CGrp _ => if is_nil v then Ok st else encodeTagged (f_num f) k v st
          | _ => encodeTagged (f_num f) k v st
          end
      end
  end.

(** marshalto.go:696-700: MarshalToSizedBufferVT of a oneof wrapper. *)
Definition marshal_wrapper (f : fdesc) (v : val) (buf : list Z) : res unit (list Z * Z) :=
  do st <- marshal_field f v (buf, zlen buf);
  Ok (fst st, zlen buf - snd st).

(** marshalto.go:655-668 (non-strict): a oneof; dispatch on the dynamic type of
    the wrapper, then marshalForwardOneOf (613-622). *)
Definition marshal_oneof (md : mdesc) (v : val) (st : mst) : mres :=
  match v with
  | VOneof num x =>
      match find_field num (md_fields md) with
      | Some f => do r <- sub_call (marshal_wrapper f x) st; Ok (fst r)
      | None => Ok st
      end
  | _ => Ok st
  end.

(** marshalto.go:631-638 (strict): a oneof member; the type assertion tests
    whether the wrapper is that member's. *)
Definition marshal_member (f : fdesc) (v : val) (st : mst) : mres :=
  match v with
  | VOneof num x =>
      if num =? f_num f
      then do r <- sub_call (marshal_wrapper f x) st; Ok (fst r)
      else Ok st
  | _ => Ok st
  end.

(** marshalto.go:602-607. *)
Definition marshal_unknown (md : mdesc) (unk : list Z) (st : mst) : mres :=
  if md_keep md then put_bytes unk st else Ok st.

(** marshalto.go:593-682: body of MarshalToSizedBufferVT[Strict]. *)
Definition marshal_body (strict : bool) (m : nat) (v : val) (buf : list Z)
  : res unit (list Z * Z) :=
  match v with
  | VMsg slots unk _ =>
      let md := md_of sc m in
      let fs := rev (sort_fields (md_fields md)) in
      do st <- marshal_unknown md unk (buf, zlen buf);
      do st <-
        (if strict then
           (* 624-640 *)
           run_all (map (fun f => if is_oneof f
                                  then marshal_member f (slot slots (f_slot f))
                                  else marshal_field f (slot slots (f_slot f))) fs) st
         else
           (* 645-670 *)
           do st <- run_all (map (fun s => marshal_oneof md (slot slots s)) (oneof_slots [] fs)) st;
           (* 672-678 *)
           run_all (map (fun f => marshal_field f (slot slots (f_slot f)))
                        (filter (fun f => negb (is_oneof f)) fs)) st);
      Ok (fst st, zlen buf - snd st)
  | _ => Ok (buf, 0)
  end.
End Marshal.

(** Recursion through sub-messages. *)
Fixpoint marshal_msg (sc : schema) (strict : bool) (n : nat) (m : nat) (v : val) (buf : list Z)
  : res unit (list Z * Z) :=
  match n with
  | O => NoFuel
  | S n' => marshal_body sc (marshal_msg sc strict n') strict m v buf
  end.

(** [func (m *T) MarshalToSizedBufferVT[Strict](dAtA []byte) (int, error)]
    (marshalto.go:593-682): returns dAtA after the call and the int. *)
Definition MarshalToSizedBufferVT (sc : schema) (strict : bool) (m : nat) (v : val) (buf : list Z)
  : res unit (list Z * Z) :=
  marshal_msg sc strict (S (vdepth v)) m v buf.

(** [func (m *T) MarshalToVT[Strict](dAtA []byte) (int, error)]
    (marshalto.go:588-591).  [arr] is the backing array of dAtA from its first
    element up to its capacity ([dAtA[:size]] may extend to the capacity). *)
Definition MarshalToVT (sc : schema) (strict : bool) (m : nat) (v : val) (arr : list Z)
  : res unit (list Z * Z) :=
  let size := SizeVT sc m v in
  do pre <- orpanic (zslice arr 0 size);
  do r <- MarshalToSizedBufferVT sc strict m v pre;
  Ok (fst r ++ skipn (Z.to_nat size) arr, snd r).

(** [func (m *T) MarshalVT[Strict]() ([]byte, error)] (marshalto.go:575-586);
    [None] is the nil slice returned for a nil receiver. *)
Definition MarshalVT (sc : schema) (strict : bool) (m : nat) (v : val)
  : res unit (option (list Z)) :=
  match v with
  | VNil => Ok None
  | _ =>
      let size := SizeVT sc m v in
      let dAtA := repeat 0 (Z.to_nat size) in
      do r <- MarshalToSizedBufferVT sc strict m v dAtA;
      do out <- orpanic (zslice (fst r) 0 (snd r));
      Ok (Some out)
  end.
