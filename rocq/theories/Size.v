(** Model of /repo/features/size/size.go: what the generated SizeVT computes. *)
From Coq Require Import ZArith List Bool.
From Verif Require Import Base Schema Value Helpers.
Import ListNotations.
Open Scope Z_scope.

Section Size.
Variable sc : schema.
(** The SizeVT methods of the messages one level down. *)
Variable rec : nat -> val -> Z.

(** size.go:42-59 messageSize. *)
Definition messageSize (m : nat) (v : val) : Z :=
  if md_foreign (md_of sc m) then up_size (sc_up sc) m v else rec m v.

(** [for _, e := range xs { n += f(e) }] *)
Definition sum_over {A} (f : A -> Z) (l : list A) : Z := fold_left (fun n e => n + f e) l 0.

(** size.go:165-178: the key part of mapEntrySize (without its tag). *)
Definition map_key_size (k : kind) (v : val) : Z :=
  match classify k with
  | CFix64 => 8
  | CFix32 => 4
  | CVar => SizeOfVarint (u64 (vint v))
  | CBool => 1
  | CStr | CByt => zlen (vbytes v) + SizeOfVarint (zlen (vbytes v))
  | CZig => SizeOfZigzag (u64 (vint v))
  | _ => 0
  end.

(** size.go:180-209: the value part of mapEntrySize, tag included. *)
Definition map_val_size (k : kind) (v : val) : Z :=
  let valueKeySize := KeySize 2 (ProtoWireType k) in
  match classify k with
  | CFix64 => valueKeySize + 8
  | CFix32 => valueKeySize + 4
  | CVar => valueKeySize + SizeOfVarint (u64 (vint v))
  | CBool => valueKeySize + 1
  | CStr => valueKeySize + (zlen (vbytes v) + SizeOfVarint (zlen (vbytes v)))
  | CByt => valueKeySize + zlen (vbytes v) + SizeOfVarint (zlen (vbytes v))
  | CZig => valueKeySize + SizeOfZigzag (u64 (vint v))
  | CMsg m =>
      let l := if is_nil v then 0 else messageSize m v in
      l + (valueKeySize + SizeOfVarint l)
  | CGrp _ => 0
  end.

(** size.go:160-220: one iteration of the map loop. *)
Definition map_entry_size (num : Z) (kk vk : kind) (e : val * val) : Z :=
  let fieldKeySize := KeySize num 2 in
  let keyKeySize := KeySize 1 (ProtoWireType kk) in
  let mapEntrySize := keyKeySize + map_key_size kk (fst e) + map_val_size vk (snd e) in
  mapEntrySize + fieldKeySize + SizeOfVarint mapEntrySize.

(** The size added for one value, tag included: the [repeated], [nullable] and
    oneof branches of size.go:77-267 (for fixed-size kinds the generator
    multiplies by the length in the repeated branch; see [size_list]). *)
Definition value_size (key : Z) (k : kind) (v : val) : Z :=
  match classify k with
  | CFix64 => key + 8
  | CFix32 => key + 4
  | CVar => key + SizeOfVarint (u64 (vint v))
  | CBool => key + 1
  | CStr | CByt => let l := zlen (vbytes v) in key + l + SizeOfVarint l
  | CZig => key + SizeOfZigzag (u64 (vint v))
  | CMsg m => let l := messageSize m v in key + l + SizeOfVarint l
  | CGrp m => let l := messageSize m v in l + 2 * key
  end.

(** The [packed] branches: size.go:79-80, 91-92, 103-108, 123-124, 246-251.
    Strings, bytes and messages are never packed. *)
Definition size_packed (key : Z) (k : kind) (l : list val) : Z :=
  match classify k with
  | CFix64 => key + SizeOfVarint (zlen l * 8) + zlen l * 8
  | CFix32 => key + SizeOfVarint (zlen l * 4) + zlen l * 4
  | CVar =>
      let s := sum_over (fun e => SizeOfVarint (u64 (vint e))) l in key + SizeOfVarint s + s
  | CBool => key + SizeOfVarint (zlen l) + zlen l * 1
  | CZig =>
      let s := sum_over (fun e => SizeOfZigzag (u64 (vint e))) l in key + SizeOfVarint s + s
  | _ => 0
  end.

(** The [repeated] branches: size.go:81-82, 93-94, 109-112, 125-126, 135-139,
    221-225, 231-235, 252-255. *)
Definition size_list (key : Z) (k : kind) (l : list val) : Z :=
  match classify k with
  | CFix64 => (key + 8) * zlen l
  | CFix32 => (key + 4) * zlen l
  | CBool => (key + 1) * zlen l
  | _ => sum_over (value_size key k) l
  end.

(** The test guarding an implicit-presence field: [m.F != 0], [m.F], [len(m.F) > 0]
    (size.go:84,96,116,128,145,238,259). *)
Definition implicit_set (k : kind) (v : val) : bool :=
  match classify k with
  | CStr | CByt => 0 <? zlen (vbytes v)
  | CMsg _ | CGrp _ => negb (is_nil v)
  | _ => negb (is_zero k (vint v))
  end.

(** size.go:61-276 field.  [v] is the value of the struct member (for a oneof
    member: of the member inside the wrapper). *)
Definition size_field (f : fdesc) (v : val) : Z :=
  match f_ty f with
  | TMap kk vk =>
      if 0 <? zlen (vmap v) then sum_over (map_entry_size (f_num f) kk vk) (vmap v) else 0
  | TField lbl k =>
      let key := KeySize (f_num f) (ProtoWireType k) in
      match lbl with
      | LRepeated true =>
          if 0 <? zlen (vlist v) then size_packed (KeySize (f_num f) 2) k (vlist v) else 0
      | LRepeated false =>
          if 0 <? zlen (vlist v) then size_list key k (vlist v) else 0
      | LOptional | LRequired => if is_nil v then 0 else value_size key k (deref v)
      | LImplicit => if implicit_set k v then value_size key k v else 0
      | LOneof =>
          match classify k with
          | CMsg _ => if is_nil v then key + 1 else value_size key k v
          | CGrp _ => if is_nil v then 0 else value_size key k v
          | _ => value_size key k v
          end
      end
  end.

(** size.go:304-320: a oneof; dispatch on the dynamic type of the wrapper, whose
    SizeVT (size.go:330-347) is [size_field] of that member. *)
Definition size_oneof (md : mdesc) (v : val) : Z :=
  match v with
  | VOneof num x =>
      match find_field num (md_fields md) with
      | Some f => size_field f x
      | None => 0
      end
  | _ => 0
  end.

(** size.go:299-322: the walk over the fields; [seen] is the set [oneofs]. *)
Fixpoint size_fields (md : mdesc) (slots : list val) (seen : list nat) (l : list fdesc) : Z :=
  match l with
  | [] => 0
  | f :: l' =>
      if is_oneof f then
        if existsb (Nat.eqb (f_slot f)) seen then size_fields md slots seen l'
        else size_oneof md (slot slots (f_slot f))
             + size_fields md slots (f_slot f :: seen) l'
      else size_field f (slot slots (f_slot f)) + size_fields md slots seen l'
  end.

(** size.go:292-327: body of SizeVT. *)
Definition size_body (m : nat) (v : val) : Z :=
  match v with
  | VMsg slots unk _ =>
      size_fields (md_of sc m) slots [] (md_fields (md_of sc m))
      + (if md_keep (md_of sc m) then zlen unk else 0)
  | _ => 0
  end.
End Size.

(** Recursion through sub-messages; fuel is the depth of the value. *)
Fixpoint size_msg (sc : schema) (n : nat) (m : nat) (v : val) : Z :=
  match n with
  | O => 0
  | S n' => size_body sc (size_msg sc n') m v
  end.

(** [func (m *T) SizeVT() int]. *)
Definition SizeVT (sc : schema) (m : nat) (v : val) : Z := size_msg sc (S (vdepth v)) m v.
