(** Model of /repo/features/unmarshal/unmarshal.go with the unmarshal_unsafe feature
    (lines 27-29): UnmarshalVTUnsafe. *)
From Coq Require Import ZArith List Bool.
From Verif Require Import Base Schema Value Unmarshal.
Import ListNotations.
Open Scope Z_scope.

(** unmarshal.go:199-204 and 438-443 (strings: [unsafe.String(&dAtA[iNdEx], n)], the
    empty string for n = 0), 246-247, 591-592, 599-600, 606-607 (byte slices:
    [dAtA[iNdEx:postIndex]]).  [base] is the position of the current buffer in the
    buffer of the outermost call. *)
Definition unsafe_env (al : list Z -> nat -> val) (path : list Z) (base : Z) : uenv :=
  mkEnv (fun i m => al (i :: path) m)
        (fun i s => match s with [] => VStr [] | _ => VRefS (base + i) s end)
        (fun i s => VRefB (base + i) s).

(** unmarshal.go:49-54, 56-81: nested calls are UnmarshalVTUnsafe too, on the slice of
    the buffer that starts at iNdEx. *)
Fixpoint um_unsafe (sc : schema) (al : list Z -> nat -> val) (n : nat) (path : list Z) (base : Z) (m : nat)
  (data : list Z) (v : val) : res val val :=
  match n with
  | O => NoFuel
  | S n' => um_body sc (fun i => um_unsafe sc al n' (i :: path) (base + i)) (unsafe_env al path base) m data v
  end.

(** [func (m *T) UnmarshalVTUnsafe(dAtA []byte) error]. *)
Definition UnmarshalVTUnsafe (sc : schema) (al : list Z -> nat -> val) (m : nat) (data : list Z) (v : val) : res val val :=
  um_unsafe sc al (S (length data)) [] 0 m data v.
