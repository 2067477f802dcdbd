(** Specification for memory, continued: what a call may touch. *)
From Coq Require Import ZArith List Bool.
From Verif Require Import Base Schema Value Heap HeapSpec HeapDec.
Import ListNotations.

(** The byte array a string aliases. *)
Definition views (v : hval) : list nat := match v with HView a _ _ => [a] | _ => [] end.
(** [kept B S V o]: the object [o] points to objects in [S] and [B] only, and its strings
    alias byte arrays in [V] only; the unknown fields of a message are in [S]. *)
Definition kept (B S V : nat -> Prop) (o : obj) : Prop :=
  (forall x, In x (vars o) -> (forall b, In b (addrs x) -> S b \/ B b) /\ (forall b, In b (views x) -> V b)) /\
  (forall l u b, o = OMsg l u -> In b (addrs u) -> S b).
Definition closed (B S V : nat -> Prop) (h : list obj) : Prop := forall a o, S a -> nth_error h a = Some o -> kept B S V o.
(** From [h] to [h'] only objects in [S] changed, and [S] is still closed. *)
Definition confined (B S V : nat -> Prop) (h h' : list obj) : Prop :=
  (length h <= length h')%nat /\ closed B S V h' /\ forall a, ~ S a -> nth_error h' a = nth_error h a.
(** [B] consists of byte arrays outside [S]. *)
Definition buffers (B S : nat -> Prop) (h : list obj) : Prop :=
  forall a, B a -> ~ S a /\ exists bs, nth_error h a = Some (OBytes bs).
(** What upstream's proto.Unmarshal guarantees: it reads what it can reach from its
    target, and writes that and new objects; but of byte arrays it changes only those of
    unknown fields (it gives bytes members new arrays). *)
Definition up_confined (f : nat -> nat -> list Z -> list obj -> bool * list obj) : Prop :=
  forall m a bs h (B S V : nat -> Prop), (forall b, (length h <= b)%nat -> S b) -> buffers B S h -> closed B S V h -> S a ->
  confined B S V h (snd (f m a bs h)).

(** The strings of the objects reachable from [roots] alias these byte arrays. *)
Definition seen (h : list obj) (roots : nat -> Prop) (b : nat) : Prop :=
  exists a o x, reach h roots a /\ nth_error h a = Some o /\ In x (vars o) /\ In b (views x).
(** What a program reaches that holds the variables [vs] and draws from the pools. *)
Definition held (s : mem) (vs : list hval) (a : nat) : Prop := (exists v, In v vs /\ from v a) \/ pooled s a.
(** A variable of type *T. *)
Definition hptr (v : hval) : Prop := v = HNil \/ exists a, v = HPtr a.
(** The call ended (with success, with an error or with a panic) and left the memory [s']. *)
Definition leaves {A} (o : out A) (s' : mem) : Prop :=
  match o with Done _ s1 | Fail _ s1 | Crash s1 => s1 = s' | Stuck => False end.
(** The addresses [bufs] are those of byte arrays. *)
Definition arrays (bufs : list nat) (h : list obj) : Prop := forall a, In a bufs -> exists bs, nth_error h a = Some (OBytes bs).
(** No message reachable from [roots] keeps its unknown fields in one of the byte arrays
    [bufs]. *)
Definition unk_apart (bufs : list nat) (h : list obj) (roots : nat -> Prop) : Prop :=
  forall a l u b, reach h roots a -> nth_error h a = Some (OMsg l u) -> In b (addrs u) -> ~ In b bufs.
(** Histories of a program that decodes with UnmarshalVTUnsafe from the buffers [bufs],
    into messages it made or took from the pools, and returns messages to the pools. *)
Section History.
Variables (sc : schema) (grow : nat -> nat) (uunm uext : nat -> nat -> list Z -> list obj -> bool * list obj) (bufs : list nat).
Inductive history (s : mem) (vs : list hval) : mem -> list hval -> Prop :=
| h_start : history s vs s vs
| h_new m s1 vs1 a s2 : history s vs s1 vs1 -> alloc (new_obj (md_of sc m)) s1 = Some (a, s2) -> history s vs s2 (HPtr a :: vs1)
| h_take m s1 vs1 a s2 : history s vs s1 vs1 -> Alloc sc m s1 = Some (a, s2) -> history s vs s2 (HPtr a :: vs1)
| h_decode m p v s1 vs1 s2 : history s vs s1 vs1 -> In v vs1 -> In (in_arr p) bufs ->
    leaves (hUnmarshal sc true grow uunm uext m p v s1) s2 -> history s vs s2 vs1
| h_return n m v s1 vs1 s2 : history s vs s1 vs1 -> In v vs1 ->
    leaves (hReturnToVTPool sc n m v s1) s2 -> history s vs s2 vs1.
End History.
