(** Go equality of numbers and what is asked of upstream's comparison. *)
From Coq Require Import ZArith List Bool Lia.
From Verif Require Import Base Schema Value WireSpec Typing RecordSpec DecodeSpec ContentSpec.
Import ListNotations.
Open Scope Z_scope.

(** IEEE 754 NaN: all exponent bits set, mantissa not zero. *)
Definition nan (k : kind) (z : Z) : Prop :=
  match k with
  | KDouble => (z / 2 ^ 52) mod 2 ^ 11 = 2 ^ 11 - 1 /\ z mod 2 ^ 52 <> 0
  | KFloat => (z / 2 ^ 23) mod 2 ^ 8 = 2 ^ 8 - 1 /\ z mod 2 ^ 23 <> 0
  | _ => False
  end.
(** Positive or negative zero. *)
Definition float_zero (k : kind) (z : Z) : Prop :=
  match k with
  | KDouble => z = 0 \/ z = 2 ^ 63
  | KFloat => z = 0 \/ z = 2 ^ 31
  | _ => False
  end.
(** Go's == on numbers: NaN differs from everything, the zeros are equal. *)
Definition go_equal (k : kind) (x y : Z) : Prop :=
  ~ nan k x /\ ~ nan k y /\ (x = y \/ (float_zero k x /\ float_zero k y)).

(** What upstream's proto.Equal guarantees. *)
Record up_eq_ok (sc : schema) : Prop := {
  up_eq_nil : forall m, up_eq (sc_up sc) m VNil VNil = true;
  up_eq_new : forall m, up_eq (sc_up sc) m (new_msg (md_of sc m)) (new_msg (md_of sc m)) = true;
  up_eq_nil_l : forall m s u h, up_eq (sc_up sc) m VNil (VMsg s u h) = false;
  up_eq_nil_r : forall m s u h, up_eq (sc_up sc) m (VMsg s u h) VNil = false;
  up_eq_sym : forall m x y, up_eq (sc_up sc) m x y = true -> up_eq (sc_up sc) m y x = true;
  up_eq_trans : forall m x y z, up_eq (sc_up sc) m x y = true -> up_eq (sc_up sc) m y z = true ->
    up_eq (sc_up sc) m x z = true }.

(** Two messages are equal in the sense of EqualVT's documentation: same presence,
    equal values, same unknown bytes. *)
Definition equal_content (sc : schema) : nat -> val -> val -> Prop :=
  same_msg sc go_equal go_equal (fun m x y => up_eq (sc_up sc) m x y = true).
(** The same, but numbers with the same bits are equal even if they are NaN. *)
Definition equal_or_identical (sc : schema) : nat -> val -> val -> Prop :=
  let E k x y := go_equal k x y \/ x = y in
  same_msg sc E E (fun m x y => up_eq (sc_up sc) m x y = true \/ x = y).

(** No number in [v] is NaN, and upstream finds the messages without helpers in [v]
    equal to themselves. *)
Definition nan_free (sc : schema) (m : nat) (v : val) : Prop :=
  all_numbers sc m v (fun k z => ~ nan k z) /\
  all_foreign sc m v (fun m' x => up_eq (sc_up sc) m' (or_empty sc m' x) (or_empty sc m' x) = true).
