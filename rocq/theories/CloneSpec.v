(** Specifications for CloneVT and for messages taken from a pool. *)
From Coq Require Import ZArith List Bool.
From Verif Require Import Base Schema Value WireSpec Typing ContentSpec.
Import ListNotations.
Open Scope Z_scope.

(** What upstream's proto.Clone guarantees: nil is cloned to nil, a message to a
    message of the same type that has the same encoding, is initialized alike and
    is equal if the original is equal to itself. *)
Record up_clone_ok (sc : schema) : Prop := {
  uc_nil : forall m, up_clone (sc_up sc) m VNil = VNil;
  uc_msg : forall m x, md_foreign (md_of sc m) = true -> wt_msg sc m x -> wt_msg sc m (up_clone (sc_up sc) m x);
  uc_enc : forall m x, md_foreign (md_of sc m) = true -> up_enc (sc_up sc) m (up_clone (sc_up sc) m x) = up_enc (sc_up sc) m x;
  uc_init : forall m x, md_foreign (md_of sc m) = true -> up_init (sc_up sc) m (up_clone (sc_up sc) m x) = up_init (sc_up sc) m x;
  uc_eq : forall m x, md_foreign (md_of sc m) = true -> up_eq (sc_up sc) m x x = true ->
    up_eq (sc_up sc) m x (up_clone (sc_up sc) m x) = true }.

(** Messages without helpers: [y] is [x] or upstream's clone of it. *)
Definition up_cloned (sc : schema) (m : nat) (x y : val) : Prop :=
  y = x \/ (md_foreign (md_of sc m) = true /\ y = up_clone (sc_up sc) m x).

(** A message with the content of a new one. *)
Definition blank (sc : schema) (m : nat) (v : val) : Prop :=
  wt_msg sc m v /\ same_msg sc same_bits same_bits (fun _ => eq) m (new_msg (md_of sc m)) v.
