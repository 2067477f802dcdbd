(** Specification of wire records, from the protobuf encoding document.  A varint
    has at most 10 bytes and stands for its value modulo 2^64. *)
From Coq Require Import ZArith List Bool.
From Verif Require Import Base Schema Value WireSpec.
Import ListNotations.
Open Scope Z_scope.

(** Input sizes: a Go slice has fewer than 2^63 - 8 bytes (the address space is
    far smaller). *)
Definition small (l : list Z) : Prop := zlen l < 9223372036854775800.

(** [t] is a tag with field number [num] and wire type [wt] (in any, not
    necessarily the shortest, varint form). *)
Definition is_tag (t : list Z) (num wt : Z) : Prop :=
  is_varint t = true /\ zlen t <= 10 /\ 0 <= num /\ 0 <= wt < 8 /\
  vval t mod 18446744073709551616 = num * 8 + wt.

(** [l] is a length prefix announcing [n] bytes. *)
Definition is_len (l : list Z) (n : Z) : Prop :=
  is_varint l = true /\ zlen l <= 10 /\ vval l mod 18446744073709551616 = n.

(** One complete record: field number, wire type, bytes.  Groups are balanced;
    that the end-group tag repeats the field number is the parameter [matching]
    (the format demands it). *)
Inductive record (matching : bool) : Z -> Z -> list Z -> Prop :=
| rec_varint num t v : is_tag t num 0 -> is_varint v = true -> zlen v <= 10 ->
    record matching num 0 (t ++ v)
| rec_fix64 num t b : is_tag t num 1 -> zlen b = 8 -> record matching num 1 (t ++ b)
| rec_len num t l b : is_tag t num 2 -> is_len l (zlen b) -> record matching num 2 (t ++ l ++ b)
| rec_group num t body e num' : is_tag t num 3 -> records matching body -> is_tag e num' 4 ->
    (matching = true -> num' = num) ->
    record matching num 3 (t ++ body ++ e)
| rec_fix32 num t b : is_tag t num 5 -> zlen b = 4 -> record matching num 5 (t ++ b)
with records (matching : bool) : list Z -> Prop :=
| recs_nil : records matching []
| recs_cons num wt r rs : record matching num wt r -> records matching rs ->
    records matching (r ++ rs).

Scheme record_mut := Minimality for record Sort Prop
  with records_mut := Minimality for records Sort Prop.

(** The number of kind [k] that the varint value [v] stands for: 64-bit truncation
    to the type, two's complement for signed types, zig-zag for sint types. *)
Definition varint_num (k : kind) (v : Z) : Z :=
  match k with
  | KInt64 => s64 v
  | KInt32 | KEnum => s32 v
  | KUint32 => v mod 4294967296
  | KUint64 => v mod 18446744073709551616
  | KBool => if v mod 18446744073709551616 =? 0 then 0 else 1
  | KSint32 => unzz (v mod 4294967296)
  | KSint64 => unzz (v mod 18446744073709551616)
  | _ => v
  end.

(** The number of kind [k] with little-endian value [v] (floats: the bits). *)
Definition fixed_num (k : kind) (v : Z) : Z :=
  match k with KSfixed32 => s32 v | KSfixed64 => s64 v | _ => v end.

(** [bs] is a wire form of the number [z] of kind [k]. *)
Definition num_wire (k : kind) (bs : list Z) (z : Z) : Prop :=
  match wire_of k with
  | 0 => is_varint bs = true /\ zlen bs <= 10 /\ z = varint_num k (vval bs)
  | 1 => zlen bs = 8 /\ z = fixed_num k (le_val bs)
  | 5 => zlen bs = 4 /\ z = fixed_num k (le_val bs)
  | _ => False
  end.
