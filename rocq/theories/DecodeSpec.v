(** Specification of decoding, from the protobuf encoding document
    (https://protobuf.dev/programming-guides/encoding/, sections "Last One Wins",
    "Packed Repeated Fields", "Maps", "Oneofs", "Message Structure"): which
    messages a conforming input denotes.  Written as relations, with none of the
    model's functions; values are the Go values protoc-gen-go generates. *)
From Coq Require Import ZArith List Bool.
From Verif Require Import Base Schema Value WireSpec Typing RecordSpec.
Import ListNotations.
Open Scope Z_scope.

(** The struct with member [i] replaced. *)
Definition put (s : list val) (i : nat) (x : val) : list val := firstn i s ++ x :: skipn (S i) s.

(** A slice with elements added at the end (adding none keeps a nil slice). *)
Definition append (old : val) (xs : list val) : val :=
  match xs with [] => old | _ => VList (vlist old ++ xs) end.

(** A map with key [k] set to [x]. *)
Inductive map_put : list (val * val) -> val -> val -> list (val * val) -> Prop :=
| mp_new l k x : ~ In k (map fst l) -> map_put l k x (l ++ [(k, x)])
| mp_old l1 l2 k y x : map_put (l1 ++ (k, y) :: l2) k x (l1 ++ (k, x) :: l2).

(** How a field with presence holds a value: scalars behind a pointer. *)
Definition boxed (k : kind) (x : val) : val :=
  if is_num k then VPtr x else match k with KString => VPtr x | _ => x end.

(** What a map entry without key (value) holds. *)
Definition entry_default (k : kind) : val :=
  if is_num k then VInt 0 else match k with KString => VStr [] | _ => VNil end.

Section Decode.
Variable sc : schema.

(** The message into which a sub-message of kind [k] is decoded if there is none yet. *)
Definition fresh (k : kind) : val :=
  match k with KMessage m => new_msg (md_of sc m) | _ => VNil end.

(** The sub-message of a singular field into which another occurrence is merged. *)
Definition merge_into (k : kind) (old : val) : val :=
  match old with VNil => fresh k | _ => old end.
(** The same for a member of a oneof: only if that member is the one set. *)
Definition merge_oneof (k : kind) (num : Z) (old : val) : val :=
  match old with VOneof n y => if n =? num then y else fresh k | _ => fresh k end.

Definition undeclared (m : nat) (num : Z) : Prop :=
  0 < num < 536870912 /\ (forall f, In f (md_fields (md_of sc m)) -> f_num f <> num) /\
  (forall r, In r (md_ext (md_of sc m)) -> ~ (fst r <= num < snd r)).

(** [dec_value k old bs x]: [bs] is the payload of a value of kind [k] (with its
    length prefix, if any), which is [x]; a message is decoded on top of [old].
    [decodes m bs v v']: the bytes [bs], decoded on top of message [v], give [v'].
    [dec_fields m bs v v' nums]: the same without the check of required fields;
    [nums] lists the field numbers of the records of [bs].
    [dec_record m num c v v']: the same for one record, of field [num].
    [dec_entry kk vk bs k x]: the map entry [bs] has key [k] and value [x] if present. *)
Inductive dec_value : kind -> val -> list Z -> val -> Prop :=
| dv_num k old bs z : num_wire k bs z -> dec_value k old bs (VInt z)
| dv_str old l q : is_len l (zlen q) -> dec_value KString old (l ++ q) (VStr q)
| dv_bytes old l q : is_len l (zlen q) -> dec_value KBytes old (l ++ q) (VBytes q)
| dv_msg m old l q x : is_len l (zlen q) -> decodes m q old x -> dec_value (KMessage m) old (l ++ q) x
with decodes : nat -> list Z -> val -> val -> Prop :=
| dec_own m bs v v' nums : md_foreign (md_of sc m) = false -> dec_fields m bs v v' nums ->
    (forall f, In f (md_fields (md_of sc m)) -> is_required f = true -> In (f_num f) nums) ->
    decodes m bs v v'
| dec_up m bs v' : md_foreign (md_of sc m) = true -> up_dec (sc_up sc) m bs = Some v' ->
    decodes m bs (new_msg (md_of sc m)) v'
with dec_fields : nat -> list Z -> val -> val -> list Z -> Prop :=
| df_nil m v : dec_fields m [] v v []
| df_cons m num c bs v v1 v' nums : dec_record m num c v v1 -> dec_fields m bs v1 v' nums ->
    dec_fields m (c ++ bs) v v' (num :: nums)
with dec_record : nat -> Z -> list Z -> val -> val -> Prop :=
(* singular field without presence: last one wins *)
| dr_implicit m f k t b x s u h : In f (md_fields (md_of sc m)) -> f_ty f = TField LImplicit k ->
    is_tag t (f_num f) (wire_of k) -> dec_value k VNil b x ->
    dec_record m (f_num f) (t ++ b) (VMsg s u h) (VMsg (put s (f_slot f) x) u h)
(* singular field with presence: last one wins, messages are merged *)
| dr_present m f l k t b x s u h : In f (md_fields (md_of sc m)) -> f_ty f = TField l k ->
    l = LOptional \/ l = LRequired -> is_tag t (f_num f) (wire_of k) ->
    dec_value k (merge_into k (slot s (f_slot f))) b x ->
    dec_record m (f_num f) (t ++ b) (VMsg s u h) (VMsg (put s (f_slot f) (boxed k x)) u h)
(* oneof: last member wins, a message is merged into the same member *)
| dr_oneof m f k t b x s u h : In f (md_fields (md_of sc m)) -> f_ty f = TField LOneof k ->
    is_tag t (f_num f) (wire_of k) ->
    dec_value k (merge_oneof k (f_num f) (slot s (f_slot f))) b x ->
    dec_record m (f_num f) (t ++ b) (VMsg s u h) (VMsg (put s (f_slot f) (VOneof (f_num f) x)) u h)
(* repeated: append (whether or not the field is declared packed) *)
| dr_repeated m f p k t b x s u h : In f (md_fields (md_of sc m)) -> f_ty f = TField (LRepeated p) k ->
    is_tag t (f_num f) (wire_of k) -> dec_value k (fresh k) b x ->
    (sub_of k <> None -> nth (f_slot f) h [] = []) ->
    dec_record m (f_num f) (t ++ b) (VMsg s u h)
      (VMsg (put s (f_slot f) (append (slot s (f_slot f)) [x])) u h)
(* packed: append all (whether or not the field is declared packed) *)
| dr_packed m f p k t l bs zs s u h : In f (md_fields (md_of sc m)) -> f_ty f = TField (LRepeated p) k ->
    is_num k = true -> is_tag t (f_num f) 2 -> is_len l (zlen (concat bs)) -> Forall2 (num_wire k) bs zs ->
    dec_record m (f_num f) (t ++ l ++ concat bs) (VMsg s u h)
      (VMsg (put s (f_slot f) (append (slot s (f_slot f)) (map VInt zs))) u h)
(* map entry: last value of a key wins *)
| dr_map m f kk vk t l b k x l' s u h : In f (md_fields (md_of sc m)) -> f_ty f = TMap kk vk ->
    is_tag t (f_num f) 2 -> is_len l (zlen b) -> dec_entry kk vk b k x ->
    map_put (vmap (slot s (f_slot f)))
      (match k with Some k => k | None => entry_default kk end)
      (match x with Some x => x | None => entry_default vk end) l' ->
    dec_record m (f_num f) (t ++ l ++ b) (VMsg s u h) (VMsg (put s (f_slot f) (VMap l')) u h)
(* undeclared field: kept verbatim (or dropped, if so configured) *)
| dr_unknown m num wt c s u h : undeclared m num -> record false num wt c ->
    dec_record m num c (VMsg s u h) (VMsg s (if md_keep (md_of sc m) then u ++ c else u) h)
with dec_entry : kind -> kind -> list Z -> option val -> option val -> Prop :=
| de_nil kk vk : dec_entry kk vk [] None None
| de_key kk vk t b bs k x : is_tag t 1 (wire_of kk) -> dec_value kk VNil b k -> dec_entry kk vk bs None x ->
    dec_entry kk vk (t ++ b ++ bs) (Some k) x
| de_value kk vk t b bs k x : is_tag t 2 (wire_of vk) -> dec_value vk (fresh vk) b x -> dec_entry kk vk bs k None ->
    dec_entry kk vk (t ++ b ++ bs) k (Some x)
| de_unknown kk vk num wt c bs k x : 2 < num < 536870912 -> record false num wt c -> dec_entry kk vk bs k x ->
    dec_entry kk vk (c ++ bs) k x.
End Decode.

Scheme dec_value_mut := Minimality for dec_value Sort Prop
  with decodes_mut := Minimality for decodes Sort Prop
  with dec_fields_mut := Minimality for dec_fields Sort Prop
  with dec_record_mut := Minimality for dec_record Sort Prop
  with dec_entry_mut := Minimality for dec_entry Sort Prop.
Combined Scheme dec_mut from dec_value_mut, decodes_mut, dec_fields_mut, dec_record_mut, dec_entry_mut.
