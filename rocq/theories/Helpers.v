(** Model of /repo/protohelpers/protohelpers.go and /repo/generator/helpers.go. *)
From Coq Require Import ZArith List Bool.
From Verif Require Import Base Schema.
Import ListNotations.
Open Scope Z_scope.

(** math/bits.Len64, used at protohelpers.go:36. *)
Definition Len64 (x : Z) : Z := if x <=? 0 then 0 else Z.log2 x + 1.

(** protohelpers.go:35-37. *)
Definition SizeOfVarint (x : Z) : Z := (Len64 (Z.lor x 1) + 6) / 7.

(** protohelpers.go:40-42; [x << 1] is on uint64, [int64(x) >> 63] is arithmetic. *)
Definition SizeOfZigzag (x : Z) : Z :=
  SizeOfVarint (Z.lxor (u64 (Z.shiftl x 1)) (u64 (Z.shiftr (s64 x) 63))).

(** The store loop shared by EncodeVarint (protohelpers.go:25-30) and by the
    forward loops of packed fields (marshalto.go:209-215, 446-452, 490-496):
    writes [v] at [off], returns the buffer and the offset after the last byte. *)
Fixpoint varint_loop (fuel : nat) (buf : list Z) (off v : Z) : res unit (list Z * Z) :=
  match fuel with
  | O => NoFuel
  | S fuel' =>
      if 128 <=? v then
        do buf' <- orpanic (zset buf off (Z.lor (Z.land v 127) 128));
        varint_loop fuel' buf' (off + 1) (Z.shiftr v 7)
      else
        do buf' <- orpanic (zset buf off v);
        Ok (buf', off + 1)
  end.

(** Enough iterations for [v] (7 bits are consumed per iteration). *)
Definition varint_fuel (v : Z) : nat := S (Z.to_nat (Z.log2 v)).

(** protohelpers.go:22-32.  [v] is the uint64 argument; sizes are passed as
    unbounded non-negative integers (no Go slice is 2^63 bytes long). *)
Definition EncodeVarint (buf : list Z) (offset v : Z) : res unit (list Z * Z) :=
  let offset := offset - SizeOfVarint v in
  let base := offset in
  do r <- varint_loop (varint_fuel v) buf offset v;
  Ok (fst r, base).

(** The varint read loop of protohelpers.go:51-64 and 84-97, and of
    unmarshal.go:83-98: [w] is the conversion to the type of the variable,
    [acc] the variable's value on entry.  Returns the variable and iNdEx. *)
Fixpoint read_varint (fuel : nat) (w : Z -> Z) (data : list Z) (i shift acc : Z)
  : res unit (Z * Z) :=
  match fuel with
  | O => NoFuel
  | S fuel' =>
      if 64 <=? shift then Err EIntOverflow tt else
      if zlen data <=? i then Err EUnexpectedEOF tt else
      do b <- orpanic (zget data i);
      let acc := Z.lor acc (w (Z.shiftl (Z.land b 127) shift)) in
      if b <? 128 then Ok (acc, i + 1)
      else read_varint fuel' w data (i + 1) (shift + 7) acc
  end.

(** unmarshal.go:83-98 with a fresh or existing variable of value [acc]. *)
Definition decodeVarint (w : Z -> Z) (acc : Z) (data : list Z) (i : Z) : res unit (Z * Z) :=
  read_varint 11 w data i 0 acc.

(** protohelpers.go:68-79: skip a varint without decoding it. *)
Fixpoint skip_varint (fuel : nat) (data : list Z) (i shift : Z) : res unit Z :=
  match fuel with
  | O => NoFuel
  | S fuel' =>
      if 64 <=? shift then Err EIntOverflow tt else
      if zlen data <=? i then Err EUnexpectedEOF tt else
      do b <- orpanic (zget data i);
      if b <? 128 then Ok (i + 1)
      else skip_varint fuel' data (i + 1) (shift + 7)
  end.

(** protohelpers.go:66-113: the switch on the wire type; returns (iNdEx, depth). *)
Definition skip_value (data : list Z) (wt i depth : Z) : res unit (Z * Z) :=
  match wt with
  | 0 => do i' <- skip_varint 11 data i 0; Ok (i', depth)
  | 1 => Ok (s64 (i + 8), depth)
  | 2 =>
      do r <- read_varint 11 s64 data i 0 0;
      let (length, i') := r in
      if length <? 0 then Err EInvalidLength tt else Ok (s64 (i' + length), depth)
  | 3 => Ok (i, depth + 1)
  | 4 => if depth =? 0 then Err EEndOfGroup tt else Ok (i, depth - 1)
  | 5 => Ok (s64 (i + 4), depth)
  | _ => Err EWireType tt
  end.

(** protohelpers.go:49-121: the loop. *)
Fixpoint skip_loop (fuel : nat) (data : list Z) (i depth : Z) : res unit Z :=
  match fuel with
  | O => NoFuel
  | S fuel' =>
      if zlen data <=? i then Err EUnexpectedEOF tt else
      do r <- read_varint 11 u64 data i 0 0;
      let (wire, i) := r in
      do r <- skip_value data (Z.land wire 7) i depth;
      let (i, depth) := r in
      if i <? 0 then Err EInvalidLength tt else
      if depth =? 0 then Ok i else skip_loop fuel' data i depth
  end.

(** protohelpers.go:45-122. *)
Definition Skip (data : list Z) : res unit Z := skip_loop (S (length data)) data 0 0.

(** generator/helpers.go:17-19: [for size = 0; x > 127; size++ { x >>= 7 }]. *)
Fixpoint key_size_loop (fuel : nat) (x size : Z) : Z :=
  match fuel with
  | O => size
  | S fuel' => if 127 <? x then key_size_loop fuel' (Z.shiftr x 7) (size + 1) else size
  end.

(** generator/helpers.go:14-22 ([uint32] shift; 5 iterations suffice for 32 bits). *)
Definition KeySize (num wt : Z) : Z :=
  let x := Z.lor (u32 (Z.shiftl (u32 num) 3)) (u32 wt) in
  key_size_loop 5 x 0 + 1.
