(** Go values of generated message types. *)
From Coq Require Import ZArith List Bool.
From Verif Require Import Base Schema.
Import ListNotations.
Open Scope Z_scope.

(** A Go value as seen by the generated code (the struct layout is that of
    protoc-gen-go, which /repo/generator/generatedfile.go:67-108 FieldGoType
    mirrors):
    - [VNil]: nil pointer, slice, map or interface;
    - [VInt z]: bool (0/1), integer, enum; a float32/float64 is represented by its
      IEEE-754 bit pattern (math.Float32bits/Float64bits);
    - [VStr s]: string;
    - [VBytes s]: non-nil byte slice;
    - [VPtr v]: pointer to a scalar (field with presence);
    - [VList l]: non-nil slice; [VMap l]: non-nil map, distinct keys, listed in
      the order one [range] loop visits them;
    - [VOneof n v]: non-nil oneof wrapper of the member with field number [n]
      (typed nil wrappers are not represented);
    - [VMsg slots unknown hidden]: pointer to a message struct: one value per
      struct member, the unknownFields bytes (nil and empty are not
      distinguished: no generated code does), and, per struct member, the
      non-zero elements left in the spare capacity of a repeated message field
      (only the pool feature observes it);
    - [VRefS off s] / [VRefB off s]: a string / byte slice that aliases the input
      buffer at absolute offset [off] (only UnmarshalVTUnsafe creates these).
    Extension fields are part of what the [upstream] oracles see; the generated
    code itself never looks at them. *)
Inductive val : Type :=
| VNil
| VInt (z : Z)
| VStr (s : list Z)
| VBytes (s : list Z)
| VPtr (v : val)
| VList (l : list val)
| VMap (l : list (val * val))
| VOneof (num : Z) (v : val)
| VMsg (slots : list val) (unk : list Z) (hid : list (list val))
| VRefS (off : Z) (s : list Z)
| VRefB (off : Z) (s : list Z).

(** Functions of google.golang.org/protobuf the generated code falls back to
    for messages without helpers: proto.Marshal (the bytes [up_enc], provided the
    message is initialized, [up_init]; an error otherwise), proto.Size,
    proto.Unmarshal (resets its target, so the old value is not an argument),
    proto.Equal, proto.Clone; and UnmarshalOptions{AllowPartial}.Unmarshal of one
    extension record into the receiver, which also resets it
    (/repo/features/unmarshal/unmarshal.go:852). *)
Record upstream : Type := mkUp {
  up_enc : nat -> val -> list Z;
  up_init : nat -> val -> bool;
  up_size : nat -> val -> Z;
  up_dec : nat -> list Z -> option val;
  up_eq : nat -> val -> val -> bool;
  up_clone : nat -> val -> val;
  up_ext : nat -> list Z -> option val }.

Record schema : Type := mkS { sc_msgs : list mdesc; sc_up : upstream }.

(** Descriptor of message number [m]. *)
Definition md_of (sc : schema) (m : nat) : mdesc := nth m (sc_msgs sc) md_default.

(** Depth of a value: bounds the recursion depth of the generated methods. *)
Fixpoint vdepth (v : val) : nat :=
  match v with
  | VPtr v => S (vdepth v)
  | VList l => S (fold_right (fun x n => Nat.max (vdepth x) n) 0%nat l)
  | VMap l => S (fold_right (fun p n => Nat.max (vdepth (snd p)) n) 0%nat l)
  | VOneof _ v => S (vdepth v)
  | VMsg s _ _ => S (fold_right (fun x n => Nat.max (vdepth x) n) 0%nat s)
  | _ => 0%nat
  end.

(** Read a struct member. *)
Definition slot (slots : list val) (i : nat) : val := nth i slots VNil.

(** Go [len(v)] of a possibly nil slice, string or map. *)
Definition vlist (v : val) : list val := match v with VList l => l | _ => [] end.
Definition vmap (v : val) : list (val * val) := match v with VMap l => l | _ => [] end.
Definition vbytes (v : val) : list Z :=
  match v with VStr s | VBytes s | VRefS _ s | VRefB _ s => s | _ => [] end.
Definition vint (v : val) : Z := match v with VInt z => z | _ => 0 end.
(** Go [*p]. *)
Definition deref (v : val) : val := match v with VPtr x => x | _ => v end.
Definition is_nil (v : val) : bool := match v with VNil => true | _ => false end.

(** Go zero value of the struct member holding field [f]. *)
Definition zero_of (t : ftype) : val :=
  match t with
  | TField LImplicit k =>
      match classify k with
      | CStr => VStr []
      | CByt | CMsg _ | CGrp _ => VNil
      | _ => VInt 0
      end
  | _ => VNil
  end.

(** Go zero value of struct member [i]. *)
Definition zero_slot (md : mdesc) (i : nat) : val :=
  match find (fun f => Nat.eqb (f_slot f) i) (md_fields md) with
  | Some f => zero_of (f_ty f)
  | None => VNil
  end.

(** The composite literal [&T{}] (unmarshal.go:504,552,556,570, pool.go:46). *)
Definition zero_slots (md : mdesc) : list val := map (zero_slot md) (seq 0 (md_nslots md)).
Definition new_msg (md : mdesc) : val := VMsg (zero_slots md) [] [].

(** Go [x != 0] on a number of kind [k] given by its representation: for floats
    the comparison is on values, so both zeros are equal to 0
    (size.go:84,96,116, marshalto.go:155,181). *)
Definition is_zero (k : kind) (z : Z) : bool :=
  match k with
  | KDouble => (z =? 0) || (z =? 9223372036854775808)
  | KFloat => (z =? 0) || (z =? 2147483648)
  | _ => z =? 0
  end.
