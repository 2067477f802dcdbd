(** Model of /repo/features/unmarshal/unmarshal.go on memory: what the generated
    UnmarshalVT and UnmarshalVTUnsafe allocate, read and write.  Unmarshal.v models the
    same code on trees.  Also, at the end, /repo/features/pool/pool.go on memory. *)
From Coq Require Import ZArith List Bool.
From Verif Require Import Base Schema Value Helpers Heap.
From Verif Require Unmarshal.
Import ListNotations.
Open Scope Z_scope.

(** Outcome of Go code that works on memory: a value, a returned error, a run-time panic
    (each with the memory left behind); [Stuck]: the Go type system rules this out, or
    the model ran out of fuel. *)
Inductive out (A : Type) : Type :=
| Done (a : A) (s : mem)
| Fail (e : err) (s : mem)
| Crash (s : mem)
| Stuck.
Arguments Done {A}. Arguments Fail {A}. Arguments Crash {A}. Arguments Stuck {A}.
Definition D (A : Type) : Type := mem -> out A.
Definition dret {A} (a : A) : D A := Done a.
Definition dbind {A B} (x : D A) (k : A -> D B) : D B :=
  fun s => match x s with Done a s' => k a s' | Fail e s' => Fail e s' | Crash s' => Crash s' | Stuck => Stuck end.
Definition derr {A} (e : err) : D A := Fail e.
Definition dcrash {A} : D A := Crash.
Definition dstuck {A} : D A := fun _ => Stuck.
Notation "'dec!' x ':=' e 'in' k" := (dbind e (fun x => k)) (at level 200, x pattern, e at level 100, k at level 200, right associativity).
(** Code that does not touch memory; memory accesses. *)
Definition calc {A} (r : res unit A) : D A :=
  fun s => match r with Ok a => Done a s | Err e _ => Fail e s | Panic => Crash s | NoFuel => Stuck end.
Definition acc {A} (x : M A) : D A := fun s => match x s with Some (a, s') => Done a s' | None => Stuck end.

(** The input [dAtA]: a slice of a byte array. *)
Record input : Type := mkIn { in_arr : nat; in_off : nat; in_len : nat; in_cap : nat }.
(** Its bytes, as they are when they are read. *)
Definition data (p : input) : D (list Z) := acc (bytes_of (HSlice (in_arr p) (in_off p) (in_len p) (in_cap p))).
(** [dAtA[i:j]] (the bounds have been checked by the caller). *)
Definition sub (p : input) (i j : Z) : input :=
  mkIn (in_arr p) (in_off p + Z.to_nat i) (Z.to_nat (j - i)) (in_cap p - Z.to_nat i).

(** Members of the receiver; a nil receiver panics. *)
Definition dget (v : hval) (i : nat) : D hval :=
  match v with HPtr a => acc (get_slot a i) | HNil => dcrash | _ => dstuck end.
Definition dset (v : hval) (i : nat) (x : hval) : D unit :=
  match v with HPtr a => acc (set_slot a i x) | HNil => dcrash | _ => dstuck end.

Section Slices.
(** The capacity Go's append chooses for a slice of a given length (left open by the
    language). *)
Variable grow : nat -> nat.
(** [append(v, x)].  New spare capacity is zero; the model writes nil for that. *)
Definition happend (v x : hval) : D hval :=
  match v with
  | HNil =>
      let c := Nat.max 1 (grow 1) in
      dec! a := acc (alloc (OArr (x :: repeat HNil (c - 1)))) in dret (HSlice a 0 1 c)
  | HSlice a off len cap =>
      if Nat.ltb len cap
      then dec! _ := acc (set_elem a (off + len) x) in dret (HSlice a off (S len) cap)
      else
        let c := Nat.max (S len) (grow (S len)) in
        dec! es := acc (elems_of v) in
        dec! a' := acc (alloc (OArr (es ++ x :: repeat HNil (c - S len)))) in dret (HSlice a' 0 (S len) c)
  | _ => dstuck
  end.
(** Overwrite bytes of an array, from [off]. *)
Definition put_bytes (a off : nat) (bs : list Z) : M unit :=
  let! o := load a in
  match o with
  | OBytes b => if Nat.leb (off + length bs) (length b)
                then store a (OBytes (firstn off b ++ bs ++ skipn (off + length bs) b)) else fail
  | _ => fail
  end.
(** [append(v, bs...)] on byte slices. *)
Definition happend_bytes (v : hval) (bs : list Z) : D hval :=
  match v with
  | HNil =>
      match bs with
      | [] => dret HNil
      | _ => let c := Nat.max (length bs) (grow (length bs)) in
             dec! a := acc (alloc (OBytes (bs ++ repeat 0 (c - length bs)))) in dret (HSlice a 0 (length bs) c)
      end
  | HSlice a off len cap =>
      let n := (len + length bs)%nat in
      if Nat.leb n cap
      then dec! _ := acc (put_bytes a (off + len) bs) in dret (HSlice a off n cap)
      else
        let c := Nat.max n (grow n) in
        dec! b := acc (bytes_of v) in
        dec! a' := acc (alloc (OBytes (b ++ bs ++ repeat 0 (c - n)))) in dret (HSlice a' 0 n c)
  | _ => dstuck
  end.
(** [v[:0]]. *)
Definition cut0 (v : hval) : D hval :=
  match v with HNil => dret HNil | HSlice a off _ cap => dret (HSlice a off 0 cap) | _ => dstuck end.
(** [make([]byte, n)] and [copy]. *)
Definition make_copy (bs : list Z) : D hval :=
  dec! a := acc (alloc (OBytes bs)) in dret (HSlice a 0 (length bs) (length bs)).
End Slices.

(** The key of a map as Go compares it. *)
Definition key_of (v : hval) : M val :=
  match v with
  | HInt z => ret (VInt z)
  | HStr s => ret (VStr s)
  | HView a off len => let! o := load a in
      match o with OBytes b => if Nat.leb (off + len) (length b) then ret (VStr (firstn len (skipn off b))) else fail | _ => fail end
  | _ => fail
  end.
(** Go map assignment on the contents of a map.  For an existing key the runtime stores
    the new key as well (runtime.mapassign_faststr; the keys are equal). *)
Fixpoint entries_set (l : list (hval * hval)) (kt : val) (k x : hval) : M (list (hval * hval)) :=
  match l with
  | [] => ret [(k, x)]
  | (k', x') :: l' =>
      let! kt' := key_of k' in
      if Unmarshal.key_eqb kt kt' then ret ((k, x) :: l')
      else let! r := entries_set l' kt k x in ret ((k', x') :: r)
  end.
Definition map_assign (v k x : hval) : M unit :=
  match v with
  | HMap a => let! o := load a in
      match o with
      | OMap l => let! kt := key_of k in let! l' := entries_set l kt k x in store a (OMap l')
      | _ => fail
      end
  | _ => fail
  end.

Section Decode.
Variable sc : schema.
(** UnmarshalVTUnsafe ([true]) or UnmarshalVT. *)
Variable unsafe : bool.
Variable grow : nat -> nat.
(** proto.Unmarshal and UnmarshalOptions{AllowPartial: true}.Unmarshal on memory
    (google.golang.org/protobuf, outside /repo): message type, address of the target,
    input, memory; whether they succeed, and the memory afterwards. *)
Variable uunm uext : nat -> nat -> list Z -> list obj -> bool * list obj.
(** The UnmarshalVT methods one level down. *)
Variable rec : nat -> input -> hval -> D unit.

Definition call_up (f : nat -> nat -> list Z -> list obj -> bool * list obj) (m : nat) (bs : list Z) (v : hval) : D unit :=
  match v with
  | HPtr a =>
      dec! o := acc (load a) in
      match o with
      | OMsg _ _ => fun s => let (ok, h) := f m a bs (heap s) in
                             let s' := mkMem h (free s) (picks s) in if ok then Done tt s' else Fail EUpstream s'
      | _ => dstuck
      end
  | HNil => dcrash
  | _ => dstuck
  end.
(** unmarshal.go:56-81 decodeMessage. *)
Definition hdecodeMessage (m : nat) (p : input) (v : hval) : D unit :=
  if md_foreign (md_of sc m) then dec! bs := data p in call_up uunm m bs v else rec m p v.

(** unmarshal.go:438-450: the string [dAtA[i:j]].  (The [unique] option interns the
    string, which copies it: as without the option.) *)
Definition hstring (p : input) (i j : Z) : D hval :=
  if unsafe then dret (if j <=? i then HStr [] else HView (in_arr p) (in_off p + Z.to_nat i) (Z.to_nat (j - i)))
  else dec! bs := data (sub p i j) in dret (HStr bs).
(** unmarshal.go:591-594, 600-601, 246-250: a new byte slice with the bytes [dAtA[i:j]]. *)
Definition hbytes (p : input) (i j : Z) : D hval :=
  let q := sub p i j in
  if unsafe then dret (HSlice (in_arr q) (in_off q) (in_len q) (in_cap q))
  else dec! bs := data q in make_copy bs.

(** The stores shared by the non-message cases of fieldItem, see Unmarshal.store. *)
Definition hstore (f : fdesc) (lbl : label) (x v : hval) : D unit :=
  match lbl with
  | LOneof => dec! w := acc (alloc (OWrap (f_num f) x)) in dset v (f_slot f) (HPtr w)
  | LRepeated _ => dec! old := dget v (f_slot f) in dec! l := happend grow old x in dset v (f_slot f) l
  | LImplicit => dset v (f_slot f) x
  | LOptional | LRequired => dec! c := acc (alloc (OCell x)) in dset v (f_slot f) (HPtr c)
  end.

(** unmarshal.go:591-616: a bytes field.  (In a singular field [append(m.F[:0], ...)]
    reuses the array the field has.) *)
Definition bytes_item (f : fdesc) (lbl : label) (p : input) (i j : Z) (v : hval) : D unit :=
  match lbl with
  | LOneof | LRepeated _ => dec! x := hbytes p i j in hstore f lbl x v
  | _ =>
      if unsafe then dec! x := hbytes p i j in dset v (f_slot f) x
      else
        dec! old := dget v (f_slot f) in
        dec! e := cut0 old in
        dec! bs := data (sub p i j) in
        dec! x := happend_bytes grow e bs in
        match x with
        | HNil => dec! a := acc (alloc (OBytes [])) in dset v (f_slot f) (HSlice a 0 0 0)
        | _ => dset v (f_slot f) x
        end
  end.

(** unmarshal.go:160-273 mapField; returns the variable and iNdEx. *)
Definition hmapField (k : kind) (cur : hval) (p : input) (i : Z) : D (hval * Z) :=
  dec! d := data p in
  match classify k with
  | CStr => dec! (i, j) := calc (Unmarshal.decodeLen true d i) in dec! x := hstring p i j in dret (x, j)
  | CByt => dec! (i, j) := calc (Unmarshal.decodeLen true d i) in dec! x := hbytes p i j in dret (x, j)
  | CMsg m =>
      dec! (i, j) := calc (Unmarshal.decodeLen false d i) in
      dec! a := acc (alloc (new_obj (md_of sc m))) in
      dec! _ := hdecodeMessage m (sub p i j) (HPtr a) in dret (HPtr a, j)
  | CGrp _ => dret (cur, i)
  | _ => dec! (z, i) := calc (Unmarshal.decodeNumber k (match cur with HInt z => z | _ => 0 end) d i) in dret (HInt z, i)
  end.
(** unmarshal.go:522-547. *)
Fixpoint hmap_loop (fuel : nat) (kk vk : kind) (p : input) (i post : Z) (key value : hval) : D (hval * hval) :=
  match fuel with
  | O => dstuck
  | S fuel' =>
      if i <? post then
        let entryPreIndex := i in
        dec! d := data p in
        dec! (wire, i) := calc (decodeVarint u64 0 d i) in
        let fieldNum := s32 (Z.shiftr wire 3) in
        if fieldNum =? 1 then dec! (key, i) := hmapField kk key p i in hmap_loop fuel' kk vk p i post key value
        else if fieldNum =? 2 then dec! (value, i) := hmapField vk value p i in hmap_loop fuel' kk vk p i post key value
        else
          let i := entryPreIndex in
          dec! rest := calc (orpanic (zslice d i (zlen d))) in
          dec! skippy := calc (Skip rest) in
          if (skippy <? 0) || (s64 (i + skippy) <? 0) then derr EInvalidLength else
          if post <? s64 (i + skippy) then derr EUnexpectedEOF else
          hmap_loop fuel' kk vk p (s64 (i + skippy)) post key value
      else dret (key, value)
  end.
(** unmarshal.go:520-521. *)
Definition hmap_zero (k : kind) : hval :=
  match classify k with CStr => HStr [] | CByt | CMsg _ | CGrp _ => HNil | _ => HInt 0 end.
(** unmarshal.go:482-494, 509-548, 575. *)
Definition hmap_item (f : fdesc) (kk vk : kind) (p : input) (i : Z) (v : hval) : D Z :=
  dec! d := data p in
  dec! (i, post) := calc (Unmarshal.decodeLen false d i) in
  dec! old := dget v (f_slot f) in
  dec! _ := match old with
            | HNil => dec! a := acc (alloc (OMap [])) in dset v (f_slot f) (HMap a)
            | _ => dret tt
            end in
  dec! (key, value) := hmap_loop (S (in_len p)) kk vk p i post (hmap_zero kk) (hmap_zero vk) in
  dec! l := dget v (f_slot f) in
  dec! _ := acc (map_assign l key value) in
  dret post.

(** [m.F[i]] on a slice; an index out of range panics. *)
Definition elem (v : hval) (i : nat) : D hval :=
  match v with
  | HSlice a off len _ => if Nat.ltb i len then acc (let! o := load a in match o with OArr l => ret (nth (off + i) l HNil) | _ => fail end) else dcrash
  | HNil => dcrash
  | _ => dstuck
  end.
Definition hlen (v : hval) : nat := match v with HSlice _ _ len _ => len | _ => 0%nat end.
Definition hcap (v : hval) : nat := match v with HSlice _ _ _ cap => cap | _ => 0%nat end.
(** unmarshal.go:549-565: extend a list of messages by one; in a message with a pool an
    element left in the spare capacity is used again. *)
Definition hlist_grow (md : mdesc) (f : fdesc) (m : nat) (v : hval) : D unit :=
  dec! old := dget v (f_slot f) in
  if md_pool md && negb (Nat.eqb (hlen old) (hcap old)) then
    match old with
    | HSlice a off len cap =>
        let l := HSlice a off (S len) cap in
        dec! _ := dset v (f_slot f) l in
        dec! x := elem l len in
        match x with
        | HPtr _ => dret tt
        | _ => dec! b := acc (alloc (new_obj (md_of sc m))) in acc (set_elem a (off + len) (HPtr b))
        end
    | _ => dstuck
    end
  else
    dec! b := acc (alloc (new_obj (md_of sc m))) in
    dec! l := happend grow old (HPtr b) in dset v (f_slot f) l.
(** unmarshal.go:504, 567-571: [&T{}] or FromVTPool. *)
Definition hfresh (md : mdesc) (m : nat) : D nat :=
  if md_pool md && md_pool (md_of sc m) then acc (Alloc sc m) else acc (alloc (new_obj (md_of sc m))).
(** unmarshal.go:482-508, 549-575. *)
Definition hmessage_item (md : mdesc) (f : fdesc) (lbl : label) (m : nat) (p : input) (i : Z) (v : hval) : D Z :=
  dec! d := data p in
  dec! (i, post) := calc (Unmarshal.decodeLen false d i) in
  let q := sub p i post in
  match lbl with
  | LOneof =>
      dec! old := dget v (f_slot f) in
      dec! keep := match old with
                   | HPtr w => acc (let! o := load w in match o with OWrap n x => ret (if n =? f_num f then Some x else None) | _ => fail end)
                   | HNil => dret None
                   | _ => dstuck
                   end in
      match keep with
      | Some x => dec! _ := hdecodeMessage m q x in dret post
      | None =>
          dec! a := hfresh md m in
          dec! _ := hdecodeMessage m q (HPtr a) in
          dec! w := acc (alloc (OWrap (f_num f) (HPtr a))) in
          dec! _ := dset v (f_slot f) (HPtr w) in dret post
      end
  | LRepeated _ =>
      dec! _ := hlist_grow md f m v in
      dec! l := dget v (f_slot f) in
      dec! x := elem l (hlen l - 1) in
      dec! _ := hdecodeMessage m q x in dret post
  | _ =>
      dec! old := dget v (f_slot f) in
      dec! _ := match old with
                | HNil => dec! a := hfresh md m in dset v (f_slot f) (HPtr a)
                | _ => dret tt
                end in
      dec! x := dget v (f_slot f) in
      dec! _ := hdecodeMessage m q x in dret post
  end.

(** unmarshal.go:462-481. *)
Fixpoint hgroup_loop (fuel : nat) (f : fdesc) (m : nat) (wire : Z) (p : input) (groupStart i : Z) (v : hval) : D Z :=
  match fuel with
  | O => dstuck
  | S fuel' =>
      let maybeGroupEnd := i in
      dec! d := data p in
      dec! (groupFieldWire, i) := calc (decodeVarint u64 0 d i) in
      if Z.land wire 7 =? 4 then
        dec! _ := calc (orpanic (zslice d groupStart maybeGroupEnd)) in
        dec! x := dget v (f_slot f) in
        dec! _ := hdecodeMessage m (sub p groupStart maybeGroupEnd) x in dret i
      else
        dec! rest := calc (orpanic (zslice d i (zlen d))) in
        dec! skippy := calc (Skip rest) in
        if (skippy <? 0) || (s64 (i + skippy) <? 0) then derr EInvalidLength else
        hgroup_loop fuel' f m wire p groupStart (s64 (i + skippy)) v
  end.

(** What decoding a number in place writes before it fails, see
    Unmarshal.number_start (unmarshal.go:331-332 and the like). *)
Definition hnumber_start (f : fdesc) (lbl : label) (k : kind) (d : list Z) (i : Z) (v : hval) : D unit :=
  if Unmarshal.in_place lbl k then
    dset v (f_slot f)
      (HInt (match classify k with
             | CVar => Unmarshal.varint_left 11 (Unmarshal.varint_conv k) d i 0 0
             | _ => 0
             end))
  else dret tt.
(** unmarshal.go:286-714 fieldItem, for a field that is not a map. *)
Definition hfieldItem (md : mdesc) (f : fdesc) (lbl : label) (k : kind) (wire : Z) (p : input) (i : Z) (v : hval) : D Z :=
  match classify k with
  | CStr =>
      dec! d := data p in
      dec! (i, post) := calc (Unmarshal.decodeLen true d i) in
      dec! x := hstring p i post in dec! _ := hstore f lbl x v in dret post
  | CByt =>
      dec! d := data p in
      dec! (i, post) := calc (Unmarshal.decodeLen false d i) in
      dec! _ := bytes_item f lbl p i post v in dret post
  | CMsg m => hmessage_item md f lbl m p i v
  | CGrp m => hgroup_loop (S (in_len p)) f m wire p i i v
  | _ =>
      dec! d := data p in
      dec! _ := hnumber_start f lbl k d i v in
      dec! (z, i) := calc (Unmarshal.decodeNumber k 0 d i) in
      dec! _ := hstore f lbl (HInt z) v in dret i
  end.
(** unmarshal.go:770-772. *)
Fixpoint hpacked_loop (fuel : nat) (md : mdesc) (f : fdesc) (lbl : label) (k : kind) (wire : Z) (p : input) (i post : Z) (v : hval) : D Z :=
  match fuel with
  | O => dstuck
  | S fuel' =>
      if i <? post then
        dec! i := hfieldItem md f lbl k wire p i v in hpacked_loop fuel' md f lbl k wire p i post v
      else dret i
  end.
(** unmarshal.go:742-758: elementCount. *)
Definition element_count (k : kind) (bs : list Z) : nat :=
  match k with
  | KDouble | KFixed64 | KSfixed64 => length bs / 8
  | KFloat | KFixed32 | KSfixed32 => length bs / 4
  | KInt64 | KUint64 | KInt32 | KUint32 | KSint32 | KSint64 => length (filter (fun b => b <? 128) bs)
  | KBool => length bs
  | _ => 0%nat
  end.
(** unmarshal.go:742-768: the list gets an array of that capacity if it is empty. *)
Definition prealloc (md : mdesc) (f : fdesc) (k : kind) (bs : list Z) (v : hval) : D unit :=
  let n := element_count k bs in
  dec! old := dget v (f_slot f) in
  if negb (Nat.eqb n 0) && Nat.eqb (hlen old) 0 && (negb (md_pool md) || Nat.ltb (hcap old) n)
  then dec! a := acc (alloc (OArr (repeat HNil n))) in dset v (f_slot f) (HSlice a 0 0 n)
  else dret tt.
(** unmarshal.go:716-781 field (without the required bit). *)
Definition hfield (md : mdesc) (f : fdesc) (wire : Z) (p : input) (i : Z) (v : hval) : D Z :=
  let wireType := Z.land wire 7 in
  match f_ty f with
  | TMap kk vk => if wireType =? 2 then hmap_item f kk vk p i v else derr EWireType
  | TField lbl k =>
      if Unmarshal.packable lbl k then
        if wireType =? ProtoWireType k then hfieldItem md f lbl k wire p i v
        else if wireType =? 2 then
          dec! d := data p in
          dec! (i, post) := calc (Unmarshal.decodeLen false d i) in
          dec! bs := data (sub p i post) in
          dec! _ := prealloc md f k bs v in
          hpacked_loop (S (in_len p)) md f lbl k wire p i post v
        else derr EWireType
      else
        if wireType =? ProtoWireType k then hfieldItem md f lbl k wire p i v else derr EWireType
  end.
(** unmarshal.go:832-866: the default case. *)
Definition hunknown (m : nat) (num : Z) (p : input) (preIndex : Z) (v : hval) : D Z :=
  let md := md_of sc m in
  let i := preIndex in
  dec! d := data p in
  dec! rest := calc (orpanic (zslice d i (zlen d))) in
  dec! skippy := calc (Skip rest) in
  if (skippy <? 0) || (s64 (i + skippy) <? 0) then derr EInvalidLength else
  if zlen d <? s64 (i + skippy) then derr EUnexpectedEOF else
  dec! raw := calc (orpanic (zslice d i (s64 (i + skippy)))) in
  if Unmarshal.in_ext md num then dec! _ := call_up uext m raw v in dret (s64 (i + skippy))
  else if md_keep md then
    match v with
    | HPtr a =>
        dec! u := acc (get_unk a) in dec! u' := happend_bytes grow u raw in dec! _ := acc (set_unk a u') in
        dret (s64 (i + skippy))
    | HNil => dcrash
    | _ => dstuck
    end
  else dret (s64 (i + skippy)).
(** unmarshal.go:817-866: one iteration of the message loop. *)
Definition hstep (m : nat) (p : input) (i : Z) (v : hval) (has : list Z) : D (Z * list Z) :=
  let md := md_of sc m in
  let preIndex := i in
  dec! d := data p in
  dec! (wire, i) := calc (decodeVarint u64 0 d i) in
  let fieldNum := s32 (Z.shiftr wire 3) in
  let wireType := Z.land wire 7 in
  if wireType =? 4 then derr EWireType else
  if fieldNum <=? 0 then derr EIllegalTag else
  match find_field fieldNum (md_fields md) with
  | Some f => dec! i := hfield md f wire p i v in dret (i, Unmarshal.has_set md f has)
  | None => dec! i := hunknown m fieldNum p preIndex v in dret (i, has)
  end.
(** unmarshal.go:816-867. *)
Fixpoint hloop (fuel : nat) (m : nat) (p : input) (i : Z) (v : hval) (has : list Z) : D (Z * list Z) :=
  match fuel with
  | O => dstuck
  | S fuel' =>
      if i <? Z.of_nat (in_len p) then dec! (i, has) := hstep m p i v has in hloop fuel' m p i v has
      else dret (i, has)
  end.
(** unmarshal.go:810-891. *)
Definition hbody (m : nat) (p : input) (v : hval) : D unit :=
  let md := md_of sc m in
  dec! (i, has) := hloop (S (in_len p)) m p 0 v (Unmarshal.has_init md) in
  if negb (Unmarshal.has_all md has) then derr ERequired else
  if Z.of_nat (in_len p) <? i then derr EUnexpectedEOF else
  dret tt.
End Decode.

(** Recursion through sub-messages. *)
Fixpoint hum_msg (sc : schema) (unsafe : bool) (grow : nat -> nat) (uunm uext : nat -> nat -> list Z -> list obj -> bool * list obj)
  (n : nat) (m : nat) (p : input) (v : hval) : D unit :=
  match n with
  | O => dstuck
  | S n' => hbody sc unsafe grow uunm uext (hum_msg sc unsafe grow uunm uext n') m p v
  end.
(** [func (m *T) UnmarshalVT(dAtA []byte) error] and UnmarshalVTUnsafe. *)
Definition hUnmarshal (sc : schema) (unsafe : bool) (grow : nat -> nat) (uunm uext : nat -> nat -> list Z -> list obj -> bool * list obj)
  (m : nat) (p : input) (v : hval) : D unit :=
  hum_msg sc unsafe grow uunm uext (S (in_len p)) m p v.

(** * /repo/features/pool/pool.go on memory; Pool.v models it on trees *)
Section Reset.
Variable sc : schema.
(** The ResetVT methods one level down. *)
Variable rec : nat -> hval -> D unit.
(** pool.go:97-102 ReturnToVTPool. *)
Definition hreturn (m : nat) (v : hval) : D unit :=
  match v with
  | HNil => dret tt
  | HPtr a =>
      dec! _ := rec m v in
      dec! o := acc (load a) in
      match o with OMsg _ _ => fun s => Done tt (mkMem (heap s) ((m, a) :: free s) (picks s)) | _ => dstuck end
  | _ => dstuck
  end.
(** [mm.Reset()] of protoc-gen-go: [*x = T{}]; panics on nil. *)
Definition hReset (m : nat) (v : hval) : D unit :=
  match v with
  | HPtr a => acc (let! o := load a in match o with OMsg _ _ => store a (new_obj (md_of sc m)) | _ => fail end)
  | HNil => dcrash
  | _ => dstuck
  end.
(** pool.go:59-65. *)
Fixpoint hreset_elems (m : nat) (l : list hval) : D unit :=
  match l with
  | [] => dret tt
  | x :: l' => dec! _ := (if md_pool (md_of sc m) then rec m x else hReset m x) in hreset_elems m l'
  end.
(** pool.go:66-67: [clear(m.F)]. *)
Definition hclear (k : kind) (v : hval) : D unit :=
  match v with
  | HSlice a off len _ =>
      acc (let! o := load a in
           match o with
           | OArr l => store a (OArr (firstn off l ++ repeat (match classify k with CStr => HStr [] | _ => HNil end) len ++ skipn (off + len) l))
           | _ => fail
           end)
  | HNil => dret tt
  | _ => dstuck
  end.
(** pool.go:53-88: one field; what is saved for its struct member. *)
Definition hreset_field (f : fdesc) (v : hval) : D (option hval) :=
  match f_ty f with
  | TMap _ _ => dret None
  | TField (LRepeated _) k =>
      dec! x := dget v (f_slot f) in
      dec! _ := match classify k with
                | CMsg m | CGrp m => match x with HNil => dret tt | _ => dec! l := acc (elems_of x) in hreset_elems m l end
                | CStr | CByt => hclear k x
                | _ => dret tt
                end in
      dec! y := cut0 x in dret (Some y)
  | TField LOneof k =>
      match classify k with
      | CMsg m | CGrp m =>
          if md_pool (md_of sc m) then
            dec! x := dget v (f_slot f) in
            match x with
            | HPtr w => dec! o := acc (load w) in
                match o with OWrap n y => if n =? f_num f then dec! _ := hreturn m y in dret None else dret None | _ => dstuck end
            | HNil => dret None
            | _ => dstuck
            end
          else dret None
      | _ => dret None
      end
  | TField _ k =>
      match classify k with
      | CMsg m | CGrp m =>
          if md_pool (md_of sc m) then dec! x := dget v (f_slot f) in dec! _ := hreturn m x in dret None else dret None
      | CByt => dec! x := dget v (f_slot f) in dec! y := cut0 x in dret (Some y)
      | _ => dret None
      end
  end.
(** pool.go:52-88: the walk over the fields; the members saved. *)
Fixpoint hreset_fields (fs : list fdesc) (v : hval) : D (list (nat * hval)) :=
  match fs with
  | [] => dret []
  | f :: fs' =>
      dec! r := hreset_field f v in
      dec! l := hreset_fields fs' v in
      dret (match r with Some x => (f_slot f, x) :: l | None => l end)
  end.
(** pool.go:91-93. *)
Fixpoint hrestore (l : list (nat * hval)) (v : hval) : D unit :=
  match l with [] => dret tt | (i, x) :: l' => dec! _ := dset v i x in hrestore l' v end.
(** pool.go:50-95: body of ResetVT. *)
Definition hreset_body (m : nat) (v : hval) : D unit :=
  match v with
  | HNil => dret tt
  | HPtr _ =>
      dec! saved := hreset_fields (md_fields (md_of sc m)) v in
      dec! _ := hReset m v in
      hrestore saved v
  | _ => dstuck
  end.
End Reset.
(** Recursion through sub-messages. *)
Fixpoint hreset_msg (sc : schema) (n : nat) (m : nat) (v : hval) : D unit :=
  match n with
  | O => dstuck
  | S n' => hreset_body sc (hreset_msg sc n') m v
  end.
(** [func (m *T) ReturnToVTPool()]; [n]: at least the depth of the message. *)
Definition hReturnToVTPool (sc : schema) (n : nat) (m : nat) (v : hval) : D unit := hreturn (hreset_msg sc n) m v.
