(** The strings and byte slices in a message, and what they show when the buffer they
    alias changes. *)
From Coq Require Import ZArith List Bool.
From Verif Require Import Base Schema Value WireSpec Typing DecodeSpec ContentSpec.
Import ListNotations.
Open Scope Z_scope.

(** [text_of f v k a]: the struct member [v] of field [f] holds the string or byte
    slice [a]. *)
Inductive text_of : fdesc -> val -> kind -> val -> Prop :=
| to_implicit f k a : f_ty f = TField LImplicit k -> text_of f a k a
| to_ptr f l a : f_ty f = TField l KString -> l = LOptional \/ l = LRequired -> text_of f (VPtr a) KString a
| to_set f l a : f_ty f = TField l KBytes -> l = LOptional \/ l = LRequired -> a <> VNil -> text_of f a KBytes a
| to_list f p k l a : f_ty f = TField (LRepeated p) k -> In a l -> text_of f (VList l) k a
| to_key f k vk l a x : f_ty f = TMap k vk -> In (a, x) l -> text_of f (VMap l) k a
| to_value f kk k l x a : f_ty f = TMap kk k -> In (x, a) l -> text_of f (VMap l) k a
| to_member f k a : f_ty f = TField LOneof k -> text_of f (VOneof (f_num f) a) k a.

(** [text_in m v k a]: the message [v] of type [m] contains the string or byte slice
    [a], at any depth (messages without helpers aside: upstream decodes those). *)
Inductive text_in (sc : schema) (m : nat) (v : val) (k : kind) (a : val) : Prop :=
| text_at m1 s u h f : within sc m v m1 (VMsg s u h) -> md_foreign (md_of sc m1) = false ->
    In f (md_fields (md_of sc m1)) -> text_of f (slot s (f_slot f)) k a -> k = KString \/ k = KBytes ->
    text_in sc m v k a.

(** What the program sees in the string or byte slice [a] when the input buffer holds
    [buf]. *)
Definition shows (buf : list Z) (a : val) : list Z :=
  match a with
  | VRefS off s | VRefB off s => firstn (length s) (skipn (Z.to_nat off) buf)
  | _ => vbytes a
  end.
(** [a] is the part of the input [buf] that starts at some position. *)
Definition part_of (buf : list Z) (a : val) : Prop :=
  exists pre s post, buf = pre ++ s ++ post /\ (a = VRefS (zlen pre) s \/ a = VRefB (zlen pre) s).
