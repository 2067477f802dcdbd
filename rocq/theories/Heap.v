(** Model of /repo/features/clone/clone.go on memory: what the generated CloneVT
    allocates, reads and writes.  Clone.v models the same code on trees. *)
From Coq Require Import ZArith List Bool.
From Verif Require Import Base Schema Value Helpers Unmarshal.
Import ListNotations.
Open Scope Z_scope.

(** * Memory *)
(** What a Go variable of a generated message holds: nil; a number (as in [VInt]); a
    string with memory of its own; a string that aliases a byte array
    (UnmarshalVTUnsafe makes these, /repo/features/unmarshal/unmarshal.go:199-204 and
    438-443: unsafe.String); a pointer to a scalar, a message or a oneof wrapper; a
    slice (array, offset, length, capacity); a map. *)
Inductive hval : Type :=
| HNil
| HInt (z : Z)
| HStr (s : list Z)
| HView (a off len : nat)
| HPtr (a : nat)
| HSlice (a off len cap : nat)
| HMap (a : nat).
(** The objects of the heap: a scalar, a byte array, an array of slice elements, the
    contents of a map, a oneof wrapper (with the field number of its type), a message
    struct (members and unknownFields). *)
Inductive obj : Type :=
| OCell (v : hval)
| OBytes (b : list Z)
| OArr (l : list hval)
| OMap (l : list (hval * hval))
| OWrap (n : Z) (v : hval)
| OMsg (slots : list hval) (unk : hval).

(** The state of the program: the objects by address, the messages the pools hold
    (type and address), and the choices sync.Pool.Get will make (Go leaves them
    open: any object of the pool, or none). *)
Record mem : Type := mkMem { heap : list obj; free : list (nat * nat); picks : list nat }.
(** Computations on memory; [None]: the Go type system rules this out, or recursion
    without end (only in cyclic memory). *)
Definition M (A : Type) : Type := mem -> option (A * mem).
Definition ret {A} (a : A) : M A := fun s => Some (a, s).
Definition bind {A B} (x : M A) (k : A -> M B) : M B := fun s => match x s with Some (a, s') => k a s' | None => None end.
Definition fail {A} : M A := fun _ => None.
Notation "'let!' x ':=' e 'in' k" := (bind e (fun x => k)) (at level 200, x name, e at level 100, k at level 200, right associativity).
Definition load (a : nat) : M obj := fun s => match nth_error (heap s) a with Some o => Some (o, s) | None => None end.
Definition store (a : nat) (o : obj) : M unit :=
  fun s => if Nat.ltb a (length (heap s)) then Some (tt, mkMem (list_set (heap s) a o) (free s) (picks s)) else None.
Definition alloc (o : obj) : M nat := fun s => Some (length (heap s), mkMem (heap s ++ [o]) (free s) (picks s)).

(** Reading and writing a struct member, an element, the unknown fields. *)
Definition get_slot (a i : nat) : M hval :=
  let! o := load a in match o with OMsg l _ => ret (nth i l HNil) | _ => fail end.
Definition set_slot (a i : nat) (x : hval) : M unit :=
  let! o := load a in match o with OMsg l u => store a (OMsg (list_set l i x) u) | _ => fail end.
Definition get_unk (a : nat) : M hval :=
  let! o := load a in match o with OMsg _ u => ret u | _ => fail end.
Definition set_unk (a : nat) (x : hval) : M unit :=
  let! o := load a in match o with OMsg l _ => store a (OMsg l x) | _ => fail end.
Definition set_elem (a i : nat) (x : hval) : M unit :=
  let! o := load a in match o with OArr l => store a (OArr (list_set l i x)) | _ => fail end.
(** Assignment of a new key of a map. *)
Definition set_key (a : nat) (k x : hval) : M unit :=
  let! o := load a in match o with OMap l => store a (OMap (l ++ [(k, x)])) | _ => fail end.
Definition set_wrap (a : nat) (x : hval) : M unit :=
  let! o := load a in match o with OWrap n _ => store a (OWrap n x) | _ => fail end.

(** The bytes of a []byte, the elements of a slice, the entries of a map. *)
Definition bytes_of (v : hval) : M (list Z) :=
  match v with
  | HNil => ret []
  | HSlice a off len _ => let! o := load a in
      match o with OBytes b => if Nat.leb (off + len) (length b) then ret (firstn len (skipn off b)) else fail | _ => fail end
  | _ => fail
  end.
Definition elems_of (v : hval) : M (list hval) :=
  match v with
  | HSlice a off len _ => let! o := load a in
      match o with OArr l => if Nat.leb (off + len) (length l) then ret (firstn len (skipn off l)) else fail | _ => fail end
  | _ => fail
  end.
Definition entries_of (v : hval) : M (list (hval * hval)) :=
  match v with
  | HMap a => let! o := load a in match o with OMap l => ret l | _ => fail end
  | _ => fail
  end.
(** The value of a number or string variable. *)
Definition scalar (v : hval) : M hval := match v with HInt _ | HStr _ | HView _ _ _ => ret v | _ => fail end.

Section Clone.
Variable sc : schema.
(** proto.Clone on memory (google.golang.org/protobuf, outside /repo): its result and
    the objects it allocates. *)
Variable uclone : nat -> hval -> list obj -> option (hval * list obj).
(** The CloneVT methods one level down. *)
Variable rec : nat -> hval -> M hval.

(** generator/generatedfile.go:67-108 FieldGoType: the zero value of a struct member. *)
Definition hzero_of (t : ftype) : hval :=
  match t with
  | TField LImplicit k =>
      match classify k with CStr => HStr [] | CByt | CMsg _ | CGrp _ => HNil | _ => HInt 0 end
  | _ => HNil
  end.
Definition hzero_slot (md : mdesc) (i : nat) : hval :=
  match find (fun f => Nat.eqb (f_slot f) i) (md_fields md) with Some f => hzero_of (f_ty f) | None => HNil end.
Definition new_obj (md : mdesc) : obj := OMsg (map (hzero_slot md) (seq 0 (md_nslots md))) HNil.

(** generator/generatedfile.go:54-65 Alloc: [new(T)], or FromVTPool
    (/repo/features/pool/pool.go:104-106: vtprotoPool.Get, which makes [&T{}] if it has
    no message to give). *)
Definition Alloc (m : nat) : M nat :=
  if md_pool (md_of sc m) then fun s =>
    match picks s with
    | [] => alloc (new_obj (md_of sc m)) s
    | i :: ps =>
        match nth_error (free s) i with
        | Some (m', a) =>
            if Nat.eqb m' m then Some (a, mkMem (heap s) (firstn i (free s) ++ skipn (S i) (free s)) ps)
            else alloc (new_obj (md_of sc m)) (mkMem (heap s) (free s) ps)
        | None => alloc (new_obj (md_of sc m)) (mkMem (heap s) (free s) ps)
        end
    end
  else alloc (new_obj (md_of sc m)).

(** clone.go:89-92: [make] and [copy] of bytes. *)
Definition hclone_bytes (v : hval) : M hval :=
  let! b := bytes_of v in let! a := alloc (OBytes b) in ret (HSlice a 0 (length b) (length b)).
(** clone.go:85 proto.Clone. *)
Definition hclone_up (m : nat) (v : hval) : M hval :=
  fun s => match uclone m v (heap s) with Some (r, new) => Some (r, mkMem (heap s ++ new) (free s) (picks s)) | None => None end.
(** clone.go:72-98 cloneFieldSingular. *)
Definition hclone_singular (k : kind) (v : hval) : M hval :=
  match classify k with
  | CMsg m | CGrp m => if md_foreign (md_of sc m) then hclone_up m v else rec m v
  | CByt => hclone_bytes v
  | _ => scalar v
  end.
(** clone.go:137-143: the loop over a list, which fills the array at [a] from index
    [i]; the elements are read before the loop starts (nothing the loop writes to is
    part of the original). *)
Fixpoint hclone_elems (k : kind) (a i : nat) (l : list hval) : M unit :=
  match l with
  | [] => ret tt
  | v :: l' => let! x := hclone_singular k v in let! _ := set_elem a i x in hclone_elems k a (S i) l'
  end.
(** clone.go:137-143: the loop over a map. *)
Fixpoint hclone_entries (vk : kind) (a : nat) (l : list (hval * hval)) : M unit :=
  match l with
  | [] => ret tt
  | (k, v) :: l' => let! k := scalar k in let! x := hclone_singular vk v in let! _ := set_key a k x in hclone_entries vk a l'
  end.
(** clone.go:101-152, 188-221: the value assigned to a struct member that is not a oneof
    and holds [rhs] in the original and [cur] in the clone.  ([make] zeroes the new
    array; every element is assigned before it is read.) *)
Definition hclone_field (f : fdesc) (rhs cur : hval) : M hval :=
  match f_ty f with
  | TMap kk vk =>
      match rhs with
      | HNil => ret cur
      | _ => let! l := entries_of rhs in let! a := alloc (OMap []) in let! _ := hclone_entries vk a l in ret (HMap a)
      end
  | TField (LRepeated _) k =>
      match rhs with
      | HNil => ret cur
      | _ => let! l := elems_of rhs in let! a := alloc (OArr (repeat HNil (length l))) in
             let! _ := hclone_elems k a 0 l in ret (HSlice a 0 (length l) (length l))
      end
  | TField LImplicit k =>
      match classify k with
      | CByt => match rhs with HNil => ret cur | _ => hclone_bytes rhs end
      | CMsg _ | CGrp _ => hclone_singular k rhs
      | _ => scalar rhs
      end
  | TField _ k =>
      match classify k with
      | CByt => match rhs with HNil => ret cur | _ => hclone_bytes rhs end
      | CMsg m | CGrp m =>
          if md_foreign (md_of sc m)
          then match rhs with HNil => ret cur | _ => hclone_singular k rhs end
          else hclone_singular k rhs
      | _ => match rhs with
             | HNil => ret cur
             | HPtr a => let! o := load a in
                 match o with OCell v => let! x := scalar v in let! a' := alloc (OCell x) in ret (HPtr a') | _ => fail end
             | _ => fail
             end
      end
  end.
(** clone.go:234-268: CloneVT of a oneof wrapper: its member. *)
Definition hclone_member (k : kind) (x : hval) : M hval :=
  match classify k with
  | CByt => match x with HNil => ret HNil | _ => hclone_bytes x end
  | CMsg m | CGrp m =>
      if md_foreign (md_of sc m)
      then match x with HNil => ret HNil | _ => hclone_singular k x end
      else hclone_singular k x
  | _ => scalar x
  end.
(** clone.go:52-69 cloneOneofField and the wrapper clone.go:244 allocates. *)
Definition hclone_oneof (md : mdesc) (rhs cur : hval) : M hval :=
  match rhs with
  | HNil => ret cur
  | HPtr a => let! o := load a in
      match o with
      | OWrap n x =>
          match find_field n (md_fields md) with
          | Some f => match f_ty f with
                      | TField _ k => let! a' := alloc (OWrap n HNil) in let! y := hclone_member k x in
                                      let! _ := set_wrap a' y in ret (HPtr a')
                      | TMap _ _ => fail
                      end
          | None => fail
          end
      | _ => fail
      end
  | _ => fail
  end.

(** clone.go:186-221: the struct members, from the message at [a] to the one at [r];
    first those outside oneofs, then the oneofs (the code generated for members that are
    not references precedes both; the assignments do not depend on each other). *)
Fixpoint hclone_members (a r : nat) (fs : list fdesc) : M unit :=
  match fs with
  | [] => ret tt
  | f :: fs' =>
      let! rhs := get_slot a (f_slot f) in let! cur := get_slot r (f_slot f) in
      let! x := hclone_field f rhs cur in let! _ := set_slot r (f_slot f) x in hclone_members a r fs'
  end.
Fixpoint hclone_oneofs (md : mdesc) (a r : nat) (l : list nat) : M unit :=
  match l with
  | [] => ret tt
  | i :: l' =>
      let! rhs := get_slot a i in let! cur := get_slot r i in
      let! x := hclone_oneof md rhs cur in let! _ := set_slot r i x in hclone_oneofs md a r l'
  end.
(** clone.go:223-229: the unknown fields. *)
Definition hclone_unk (md : mdesc) (a r : nat) : M unit :=
  if md_keep md then
    let! u := get_unk a in let! b := bytes_of u in
    if 0 <? zlen b then let! n := alloc (OBytes b) in set_unk r (HSlice n 0 (length b) (length b)) else ret tt
  else ret tt.
(** clone.go:172-232 body. *)
Definition hclone_body (m : nat) (v : hval) : M hval :=
  match v with
  | HNil => ret HNil
  | HPtr a =>
      let md := md_of sc m in
      let! r := Alloc m in
      let! _ := hclone_members a r (filter (fun f => negb (is_oneof f)) (md_fields md)) in
      let! _ := hclone_oneofs md a r (oneof_slots [] (md_fields md)) in
      let! _ := hclone_unk md a r in
      ret (HPtr r)
  | _ => fail
  end.
End Clone.

(** Recursion through sub-messages. *)
Fixpoint hclone_msg (sc : schema) (uclone : nat -> hval -> list obj -> option (hval * list obj)) (n : nat) (m : nat) (v : hval) : M hval :=
  match n with
  | O => fail
  | S n' => hclone_body sc uclone (hclone_msg sc uclone n') m v
  end.
