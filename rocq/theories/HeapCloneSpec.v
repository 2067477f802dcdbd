(** Specification for CloneVT on memory: what upstream's proto.Clone does there. *)
From Coq Require Import ZArith List Bool.
From Verif Require Import Base Schema Value Typing MsgSpec PoolSpec Heap HeapOwnSpec.
Import ListNotations.
Open Scope Z_scope.

(** proto.Clone on memory (google.golang.org/protobuf, outside /repo): if the variable holds
    a tree of its own (or nil), the result is the tree proto.Clone gives, made of new
    objects. *)
Definition up_clone_owns (sc : schema) (uclone : nat -> hval -> list obj -> option (hval * list obj)) : Prop :=
  forall (P : nat -> Prop) m v h t, md_foreign (md_of sc m) = true -> (forall b, P b -> (b < length h)%nat) -> wt_ptrmsg sc m t ->
  owns true true false (fun _ => False) h P t v ->
  exists r new, uclone m v h = Some (r, new) /\
    owns true true false (fun _ => False) (h ++ new) (fun b => (length h <= b < length (h ++ new))%nat) (up_clone (sc_up sc) m t) r.
(** On trees: it does not look at what waits in spare capacity, and a message generated code
    can merge into is cloned to one. *)
Record up_clone_more (sc : schema) : Prop := {
  uc_trim : forall m a b, md_foreign (md_of sc m) = true -> wt_msg sc m a -> wt_msg sc m b -> trim a = trim b ->
    trim (up_clone (sc_up sc) m a) = trim (up_clone (sc_up sc) m b);
  uc_target : forall m a, md_foreign (md_of sc m) = true -> target sc m a -> target sc m (up_clone (sc_up sc) m a) }.
