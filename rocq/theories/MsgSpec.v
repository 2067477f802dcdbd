(** Specifications about whole messages, independent of the model's functions. *)
From Coq Require Import ZArith List Bool Permutation.
From Verif Require Import Base Schema Value Typing.
Import ListNotations.
Open Scope Z_scope.

(** * Missing required fields *)

(** Field of type [t] whose struct member is [v] holds the (sub-)value [x] of kind
    [k]: list elements, map values, singular values that are set. *)
Inductive populated : ftype -> val -> kind -> val -> Prop :=
| pop_list p k l x : In x l -> populated (TField (LRepeated p) k) (VList l) k x
| pop_map kk k l y x : In (y, x) l -> populated (TMap kk k) (VMap l) k x
| pop_sing lbl k x : lbl = LOptional \/ lbl = LRequired -> x <> VNil ->
    populated (TField lbl k) x k x.

(** Message [v] of type [m] has an unset required field: its own, or one of a
    message reached through populated fields (asked of upstream for messages
    without helpers). *)
Inductive MissingRequired (sc : schema) : nat -> val -> Prop :=
| miss_here m slots unk hid f :
    In f (md_fields (md_of sc m)) -> is_required f = true -> slot slots (f_slot f) = VNil ->
    MissingRequired sc m (VMsg slots unk hid)
| miss_in m slots unk hid f k m' x :
    In f (md_fields (md_of sc m)) -> populated (f_ty f) (slot slots (f_slot f)) k x ->
    sub_of k = Some m' -> MissingSub sc m' x -> MissingRequired sc m (VMsg slots unk hid)
| miss_oneof m slots unk hid f k m' x :
    In f (md_fields (md_of sc m)) -> f_ty f = TField LOneof k ->
    slot slots (f_slot f) = VOneof (f_num f) x -> x <> VNil ->
    sub_of k = Some m' -> MissingSub sc m' x -> MissingRequired sc m (VMsg slots unk hid)
with MissingSub (sc : schema) : nat -> val -> Prop :=
| miss_own m x : md_foreign (md_of sc m) = false -> MissingRequired sc m x -> MissingSub sc m x
| miss_up m x : md_foreign (md_of sc m) = true -> up_init (sc_up sc) m x = false -> MissingSub sc m x.


(** * Map iteration order *)

(** The same Go value as seen by two runs whose [range] loops visit maps (at any
    depth) in different orders. *)
Inductive reorder : val -> val -> Prop :=
| ro_refl v : reorder v v
| ro_list l l' : Forall2 reorder l l' -> reorder (VList l) (VList l')
| ro_map l l1 l' : Permutation l l1 ->
    Forall2 (fun a b => fst a = fst b /\ reorder (snd a) (snd b)) l1 l' -> reorder (VMap l) (VMap l')
| ro_oneof n x y : reorder x y -> reorder (VOneof n x) (VOneof n y)
| ro_msg s s' u h : Forall2 reorder s s' -> reorder (VMsg s u h) (VMsg s' u h).

(** What upstream guarantees about map order: it affects neither the encoded
    length nor whether required fields are set. *)
Record up_reorder_ok (sc : schema) : Prop := {
  up_reorder_len : forall m v v', md_foreign (md_of sc m) = true -> reorder v v' ->
    zlen (up_enc (sc_up sc) m v) = zlen (up_enc (sc_up sc) m v');
  up_reorder_init : forall m v v', md_foreign (md_of sc m) = true -> reorder v v' ->
    up_init (sc_up sc) m v = up_init (sc_up sc) m v' }.

(** * Receivers of UnmarshalVT *)

(** A message into which generated code can merge: a oneof wrapper it would merge
    into holds a message (Go also allows [&Wrapper{nil}], on which UnmarshalVT
    panics), and so on for the sub-messages it would merge into; the elements left
    in spare capacity (pool feature only) are messages of the right type. *)
Inductive mergeable (sc : schema) : nat -> val -> Prop :=
| mg_msg m s u h :
    (forall f l k m', In f (md_fields (md_of sc m)) -> f_ty f = TField l k ->
       l = LOptional \/ l = LRequired -> sub_of k = Some m' ->
       slot s (f_slot f) = VNil \/ mergeable sc m' (slot s (f_slot f))) ->
    (forall f k m' x, In f (md_fields (md_of sc m)) -> f_ty f = TField LOneof k ->
       sub_of k = Some m' -> slot s (f_slot f) = VOneof (f_num f) x -> mergeable sc m' x) ->
    (forall f p k m' x, In f (md_fields (md_of sc m)) -> f_ty f = TField (LRepeated p) k ->
       sub_of k = Some m' -> In x (nth (f_slot f) h []) ->
       x = VNil \/ (wt_msg sc m' x /\ mergeable sc m' x)) ->
    mergeable sc m (VMsg s u h).

(** A well-typed receiver. *)
Definition target (sc : schema) (m : nat) (v : val) : Prop := wt_msg sc m v /\ mergeable sc m v.

(** What upstream guarantees about decoding: it produces values of the right type. *)
Record up_dec_ok (sc : schema) : Prop := {
  up_dec_wt : forall m bs v, md_foreign (md_of sc m) = true ->
    up_dec (sc_up sc) m bs = Some v -> target sc m v;
  up_ext_wt : forall m bs v, up_ext (sc_up sc) m bs = Some v -> target sc m v }.
