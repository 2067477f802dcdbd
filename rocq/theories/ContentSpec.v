(** When do two messages have the same content?  Independent of the model's
    functions; values are the Go values protoc-gen-go generates. *)
From Coq Require Import ZArith List Bool Permutation.
From Verif Require Import Base Schema Value WireSpec Typing RecordSpec DecodeSpec.
Import ListNotations.
Open Scope Z_scope.

Section Content.
Variable sc : schema.
(** Equality of numbers of a kind (floats: of bit patterns); [I] is used for fields
    without presence, [E] everywhere else. *)
Variable E I : kind -> Z -> Z -> Prop.
(** Equality of messages without helpers. *)
Variable P : nat -> val -> val -> Prop.

(** Nil sub-messages in lists, maps and oneofs stand for empty ones. *)
Definition or_empty (m : nat) (v : val) : val :=
  match v with VNil => new_msg (md_of sc m) | _ => v end.

(** [same_value]: list elements, map keys and values, oneof members, the values of
    set fields; [same_field f]: the struct member of field [f]; [same_msg]: messages. *)
Inductive same_value : kind -> val -> val -> Prop :=
| sv_num k x y : is_num k = true -> E k x y -> same_value k (VInt x) (VInt y)
| sv_text k a b : k = KString \/ k = KBytes -> vbytes a = vbytes b -> same_value k a b
| sv_msg k m a b : sub_of k = Some m -> md_foreign (md_of sc m) = false ->
    same_msg m (or_empty m a) (or_empty m b) -> same_value k a b
| sv_up k m a b : sub_of k = Some m -> md_foreign (md_of sc m) = true ->
    P m (or_empty m a) (or_empty m b) -> same_value k a b
with same_field : fdesc -> val -> val -> Prop :=
| sf_number f k x y : f_ty f = TField LImplicit k -> is_num k = true -> I k x y ->
    same_field f (VInt x) (VInt y)
| sf_implicit f k a b : f_ty f = TField LImplicit k -> is_num k = false -> same_value k a b ->
    same_field f a b
| sf_unset f l k : f_ty f = TField l k -> l = LOptional \/ l = LRequired -> same_field f VNil VNil
| sf_present f l k a b : f_ty f = TField l k -> l = LOptional \/ l = LRequired ->
    a <> VNil -> b <> VNil -> same_value k (deref a) (deref b) -> same_field f a b
| sf_list f p k a b : f_ty f = TField (LRepeated p) k -> Forall2 (same_value k) (vlist a) (vlist b) ->
    same_field f a b
| sf_map f kk vk a b l : f_ty f = TMap kk vk -> Permutation (vmap a) l ->
    Forall2 (fun e e' => same_value kk (fst e) (fst e') /\ same_value vk (snd e) (snd e')) l (vmap b) ->
    same_field f a b
| sf_other f k a b : f_ty f = TField LOneof k ->
    (forall x, a <> VOneof (f_num f) x) -> (forall y, b <> VOneof (f_num f) y) -> same_field f a b
| sf_member f k x y : f_ty f = TField LOneof k -> same_value k x y ->
    same_field f (VOneof (f_num f) x) (VOneof (f_num f) y)
with same_msg : nat -> val -> val -> Prop :=
| sm_msg m s u h s' u' h' :
    (forall f, In f (md_fields (md_of sc m)) -> same_field f (slot s (f_slot f)) (slot s' (f_slot f))) ->
    (md_keep (md_of sc m) = true -> u = u') ->
    same_msg m (VMsg s u h) (VMsg s' u' h').
End Content.

(** The same bits. *)
Definition same_bits (k : kind) (x y : Z) : Prop := x = y.
(** The same bits, except that negative zero becomes zero. *)
Definition zero_normal (k : kind) (x y : Z) : Prop := y = if zero_num k x then 0 else x.

(** [holds f v k x]: the struct member [v] of field [f] holds the value [x] of kind [k]. *)
Inductive holds : fdesc -> val -> kind -> val -> Prop :=
| holds_list f p k l x : f_ty f = TField (LRepeated p) k -> In x l -> holds f (VList l) k x
| holds_map f kk k l y x : f_ty f = TMap kk k -> In (y, x) l -> holds f (VMap l) k x
| holds_set f l k x : f_ty f = TField l k -> l = LOptional \/ l = LRequired -> x <> VNil -> holds f x k x
| holds_member f k x : f_ty f = TField LOneof k -> holds f (VOneof (f_num f) x) k x.

(** [within m v m' x]: the message [v] of type [m] contains the message [x] (maybe
    nil) of type [m'], at any depth. *)
Inductive within (sc : schema) : nat -> val -> nat -> val -> Prop :=
| in_self m v : within sc m v m v
| in_sub m s u h f k m1 x m' y : md_foreign (md_of sc m) = false -> In f (md_fields (md_of sc m)) ->
    holds f (slot s (f_slot f)) k x -> sub_of k = Some m1 -> within sc m1 x m' y ->
    within sc m (VMsg s u h) m' y.

(** Bytes made of well-formed records of undeclared fields. *)
Definition unknown_records (sc : schema) (m : nat) (u : list Z) : Prop :=
  exists rs, u = concat rs /\
    Forall (fun r => exists num wt, undeclared sc m num /\ record false num wt r) rs.

(** What every message contained in a marshalled one must meet for the bytes to be
    decodable: no nil message stands for one with required fields, the unknown
    bytes are well-formed records of undeclared fields, groups (which the generated
    decoder rejects) are unset; messages without helpers survive upstream's own
    encoding and decoding. *)
Definition ok_here (sc : schema) (P : nat -> val -> val -> Prop) (m : nat) (x : val) : Prop :=
  if md_foreign (md_of sc m) then
    bytes_ok (up_enc (sc_up sc) m x) = true /\
    exists x', up_dec (sc_up sc) m (up_enc (sc_up sc) m x) = Some x' /\ P m (or_empty sc m x) x'
  else
    (x = VNil -> forall f, In f (md_fields (md_of sc m)) -> is_required f = false) /\
    (forall s u h, x = VMsg s u h ->
      (md_keep (md_of sc m) = true -> unknown_records sc m u) /\
      (forall f l g, In f (md_fields (md_of sc m)) -> f_ty f = TField l (KGroup g) -> slot s (f_slot f) = VNil)).
Definition decodable (sc : schema) (P : nat -> val -> val -> Prop) (m : nat) (v : val) : Prop :=
  forall m' x, within sc m v m' x -> ok_here sc P m' x.

(** [number f v k z]: the struct member [v] of field [f] holds the number [z] of
    kind [k] (map keys aside). *)
Inductive number : fdesc -> val -> kind -> Z -> Prop :=
| number_implicit f k z : f_ty f = TField LImplicit k -> number f (VInt z) k z
| number_set f l k z : f_ty f = TField l k -> l = LOptional \/ l = LRequired -> number f (VPtr (VInt z)) k z
| number_list f p k l z : f_ty f = TField (LRepeated p) k -> In (VInt z) l -> number f (VList l) k z
| number_map f kk k l y z : f_ty f = TMap kk k -> In (y, VInt z) l -> number f (VMap l) k z
| number_member f k z : f_ty f = TField LOneof k -> number f (VOneof (f_num f) (VInt z)) k z.

(** All numbers in [v], at any depth, meet [N], and all contained messages without
    helpers meet [Q]. *)
Definition all_numbers (sc : schema) (m : nat) (v : val) (N : kind -> Z -> Prop) : Prop :=
  forall m' s u h f k z, within sc m v m' (VMsg s u h) -> md_foreign (md_of sc m') = false ->
    In f (md_fields (md_of sc m')) -> number f (slot s (f_slot f)) k z -> N k z.
Definition all_foreign (sc : schema) (m : nat) (v : val) (Q : nat -> val -> Prop) : Prop :=
  forall m' x, within sc m v m' x -> md_foreign (md_of sc m') = true -> Q m' x.
