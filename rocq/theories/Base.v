(** Base definitions: Go integer conversions, byte buffers with explicit
    out-of-range behaviour, outcomes of Go code.  These model the Go language
    and its runtime, not a particular file of /repo; each definition says which
    Go construct it stands for and where /repo uses it. *)
From Coq Require Import ZArith List Bool Lia.
Import ListNotations.
Open Scope Z_scope.

(** Go conversion [uint64(x)] (used e.g. in /repo/features/marshal/marshalto.go:65). *)
Definition u64 (z : Z) : Z := z mod 18446744073709551616.
(** Go conversion [uint32(x)] (/repo/features/marshal/marshalto.go:61). *)
Definition u32 (z : Z) : Z := z mod 4294967296.
(** Go conversion [int64(x)] / [int(x)] on a 64-bit platform
    (/repo/features/unmarshal/unmarshal.go:187, protohelpers.go:41). *)
Definition s64 (z : Z) : Z :=
  let r := z mod 18446744073709551616 in
  if r <? 9223372036854775808 then r else r - 18446744073709551616.
(** Go conversion [int32(x)] (/repo/features/unmarshal/unmarshal.go:820). *)
Definition s32 (z : Z) : Z :=
  let r := z mod 4294967296 in
  if r <? 2147483648 then r else r - 4294967296.

(** A Go [byte]. *)
Definition is_byte (b : Z) : bool := (0 <=? b) && (b <? 256).
Definition bytes_ok (l : list Z) : bool := forallb is_byte l.

(** Go [len]. *)
Definition zlen {A} (l : list A) : Z := Z.of_nat (length l).

(** Go index expression [l[i]]; [None] is a run-time panic. *)
Definition zget (l : list Z) (i : Z) : option Z :=
  if (0 <=? i) && (i <? zlen l) then nth_error l (Z.to_nat i) else None.

(** Go slice expression [l[i:j]] with [j <= len l]; [None] is a run-time panic.
    (Go allows j up to the capacity; every use in the generated code has been
    bounds-checked against len before, or the caller passes the full array.) *)
Definition zslice (l : list Z) (i j : Z) : option (list Z) :=
  if (0 <=? i) && (i <=? j) && (j <=? zlen l)
  then Some (firstn (Z.to_nat (j - i)) (skipn (Z.to_nat i) l)) else None.

(** Go assignment [l[i] = b]; [None] is a run-time panic. *)
Definition zset (l : list Z) (i : Z) (b : Z) : option (list Z) :=
  if (0 <=? i) && (i <? zlen l)
  then Some (firstn (Z.to_nat i) l ++ b :: skipn (S (Z.to_nat i)) l) else None.

(** Go [copy(l[i:], bs)]: panics if [i] is out of [0..len l]; copies
    [min(len bs, len l - i)] bytes. *)
Definition zcopy (l : list Z) (i : Z) (bs : list Z) : option (list Z) :=
  if (0 <=? i) && (i <=? zlen l)
  then let n := Nat.min (length bs) (length l - Z.to_nat i) in
       Some (firstn (Z.to_nat i) l ++ firstn n bs ++ skipn (Z.to_nat i + n) l)
  else None.

(** Errors returned by the generated code and by protohelpers
    (/repo/protohelpers/protohelpers.go:11-18 and the [fmt.Errorf] calls of the
    generated code); the text of the message is not modelled. *)
Inductive err : Type :=
| EIntOverflow      (* protohelpers.ErrIntOverflow *)
| EUnexpectedEOF    (* io.ErrUnexpectedEOF *)
| EInvalidLength    (* protohelpers.ErrInvalidLength *)
| EEndOfGroup       (* protohelpers.ErrUnexpectedEndOfGroup *)
| EWireType         (* "proto: illegal wireType", "wrong wireType", "wiretype end group for non-group" *)
| EIllegalTag       (* "illegal tag %d" *)
| ERequired         (* "proto: required field %s not set" *)
| EUpstream         (* an error returned by google.golang.org/protobuf *)
| ENotMessage.      (* codec: value has no vtproto helpers *)

(** Outcome of Go code: a value, a returned error (with the state [p] left
    behind), a run-time panic, or exhausted model fuel (proved unreachable). *)
Inductive res (P A : Type) : Type :=
| Ok (a : A)
| Err (e : err) (p : P)
| Panic
| NoFuel.
Arguments Ok {P A}. Arguments Err {P A}. Arguments Panic {P A}. Arguments NoFuel {P A}.

Definition rbind {P A B} (r : res P A) (f : A -> res P B) : res P B :=
  match r with
  | Ok a => f a
  | Err e p => Err e p
  | Panic => Panic
  | NoFuel => NoFuel
  end.

(** Run a computation without state of its own inside one whose state at this
    point is [p]: an error leaves [p] behind. *)
Definition lift {P A} (p : P) (r : res unit A) : res P A :=
  match r with
  | Ok a => Ok a
  | Err e _ => Err e p
  | Panic => Panic
  | NoFuel => NoFuel
  end.

(** A partial (panicking) primitive. *)
Definition orpanic {P A} (o : option A) : res P A :=
  match o with Some a => Ok a | None => Panic end.

Notation "'do' x <- r ; k" := (rbind r (fun x => k))
  (at level 200, x pattern, r at level 100, k at level 200, right associativity).

(** Little-endian bytes of an unsigned value: encoding/binary
    LittleEndian.PutUint32/PutUint64 (n = 4, 8) write these bytes
    (/repo/features/marshal/marshalto.go:56,61). *)
Fixpoint le_put (n : nat) (v : Z) : list Z :=
  match n with
  | O => []
  | S n' => Z.land v 255 :: le_put n' (Z.shiftr v 8)
  end.

(** encoding/binary LittleEndian.Uint32/Uint64 on the given bytes
    (/repo/features/unmarshal/unmarshal.go:104,112). *)
Fixpoint le_get (l : list Z) : Z :=
  match l with
  | [] => 0
  | b :: l' => Z.lor b (Z.shiftl (le_get l') 8)
  end.
