(** Specification for memory: reachability, the tree a variable holds, what a program can
    do with the memory it reaches. *)
From Coq Require Import ZArith List Bool.
From Verif Require Import Base Schema Value Unmarshal Typing Heap.
Import ListNotations.
Open Scope Z_scope.

(** * Reachability *)
(** The object a variable lets the program change (strings cannot be changed). *)
Definition addrs (v : hval) : list nat := match v with HPtr a | HMap a | HSlice a _ _ _ => [a] | _ => [] end.
(** The variables in an object. *)
Definition vars (o : obj) : list hval :=
  match o with
  | OCell v | OWrap _ v => [v]
  | OBytes _ => []
  | OArr l => l
  | OMap l => map fst l ++ map snd l
  | OMsg l u => u :: l
  end.
Definition points (o : obj) (b : nat) : Prop := exists x, In x (vars o) /\ In b (addrs x).
Inductive reach (h : list obj) (roots : nat -> Prop) : nat -> Prop :=
| reach_root a : roots a -> reach h roots a
| reach_next a o b : reach h roots a -> nth_error h a = Some o -> points o b -> reach h roots b.
Definition from (v : hval) (a : nat) : Prop := In a (addrs v).
Definition pooled (s : mem) (a : nat) : Prop := exists m, In (m, a) (free s).

(** * Contents *)
(** [reads P V h t v]: in the heap [h] the variable [v] holds the tree [t]; all objects it
    is made of satisfy [P], and all byte arrays its strings alias satisfy [V].  (Spare
    capacity is not part of the tree.) *)
Section Reads.
Variables (P V : nat -> Prop) (h : list obj).
Definition slice {A} (l : list A) (off len : nat) (s : list A) : Prop := (off + len <= length l)%nat /\ s = firstn len (skipn off l).
Definition reads_string (s : list Z) (v : hval) : Prop :=
  match v with
  | HStr s' => s' = s
  | HView a off len => V a /\ exists b, nth_error h a = Some (OBytes b) /\ slice b off len s
  | _ => False
  end.
Definition reads_bytes (s : list Z) (v : hval) : Prop :=
  match v with
  | HSlice a off len _ => P a /\ exists b, nth_error h a = Some (OBytes b) /\ slice b off len s
  | _ => False
  end.
Fixpoint reads (t : val) (v : hval) {struct t} : Prop :=
  match t with
  | VNil => v = HNil
  | VInt z => v = HInt z
  | VStr s => reads_string s v
  | VBytes s => reads_bytes s v
  | VPtr x => exists a y, v = HPtr a /\ P a /\ nth_error h a = Some (OCell y) /\ reads x y
  | VList l => exists a off len cap es es', v = HSlice a off len cap /\ P a /\ nth_error h a = Some (OArr es) /\ slice es off len es' /\
      (fix all (l : list val) (es : list hval) {struct l} : Prop :=
         match l, es with [], [] => True | x :: l', e :: es' => reads x e /\ all l' es' | _, _ => False end) l es'
  | VMap l => exists a es, v = HMap a /\ P a /\ nth_error h a = Some (OMap es) /\
      (fix all (l : list (val * val)) (es : list (hval * hval)) {struct l} : Prop :=
         match l, es with [], [] => True | (k, x) :: l', (e, y) :: es' => reads k e /\ reads x y /\ all l' es' | _, _ => False end) l es
  | VOneof n x => exists a y, v = HPtr a /\ P a /\ nth_error h a = Some (OWrap n y) /\ reads x y
  | VMsg slots unk hid => hid = [] /\ exists a hs u, v = HPtr a /\ P a /\ nth_error h a = Some (OMsg hs u) /\
      ((u = HNil /\ unk = []) \/ reads_bytes unk u) /\
      (fix all (l : list val) (es : list hval) {struct l} : Prop :=
         match l, es with [], [] => True | x :: l', e :: es' => reads x e /\ all l' es' | _, _ => False end) slots hs
  | VRefS _ _ | VRefB _ _ => False
  end.
End Reads.

(** * Programs *)
(** What a program that holds the addresses [R] can do to the heap: read objects it holds
    the address of, allocate, and overwrite objects it holds the address of, with objects
    that point to what it holds the address of. *)
Inductive runs (R : nat -> Prop) (h : list obj) : list obj -> Prop :=
| run_done : runs R h h
| run_read a o h' : R a -> nth_error h a = Some o -> runs (fun b => R b \/ points o b) h h' -> runs R h h'
| run_alloc o h' : (forall b, points o b -> R b) -> runs (fun b => R b \/ b = length h) (h ++ [o]) h' -> runs R h h'
| run_write a o h' : R a -> (forall b, points o b -> R b) -> runs R (list_set h a o) h' -> runs R h h'.

(** What upstream's proto.Clone guarantees: its result and the objects it allocates point
    to those objects only. *)
Definition up_fresh (uclone : nat -> hval -> list obj -> option (hval * list obj)) : Prop :=
  forall m v h r new, uclone m v h = Some (r, new) ->
  (forall a, In a (addrs r) -> (length h <= a)%nat) /\ (forall o a, In o new -> points o a -> (length h <= a)%nat).
(** ... and, for a message without helpers, the result holds the tree up_clone gives. *)
Definition up_holds (sc : schema) (uclone : nat -> hval -> list obj -> option (hval * list obj)) : Prop :=
  forall m v h t V, md_foreign (md_of sc m) = true -> wt_ptrmsg sc m t -> reads (fun _ => True) V h t v ->
  exists r new, uclone m v h = Some (r, new) /\ reads (fun a => (length h <= a)%nat) V (h ++ new) (up_clone (sc_up sc) m t) r.
