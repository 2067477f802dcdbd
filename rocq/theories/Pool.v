(** Model of /repo/features/pool/pool.go: ResetVT, ReturnToVTPool, FromVTPool, and
    UnmarshalVT of messages drawn from the pools. *)
From Coq Require Import ZArith List Bool.
From Verif Require Import Base Schema Value Helpers Unmarshal.
Import ListNotations.
Open Scope Z_scope.

(** Objects handed to sync.Pool.Put, with their message type. *)
Definition puts : Type := list (nat * val).

Section Pool.
Variable sc : schema.
(** The ResetVT methods one level down. *)
Variable rec : nat -> val -> res unit (val * puts).

(** pool.go:97-102 ReturnToVTPool on a message one level down. *)
Definition return_sub (m : nat) (v : val) : res unit puts :=
  match v with
  | VMsg _ _ _ => do r <- rec m v; Ok (snd r ++ [(m, fst r)])
  | _ => Ok []
  end.

(** pool.go:59-65: [for _, mm := range m.F { mm.ResetVT() / mm.Reset() }].
    ResetVT is nil-safe; the Reset of protoc-gen-go starts with [*x = T{}] and
    panics on nil. *)
Fixpoint reset_elems (m : nat) (l : list val) : res unit (list val * puts) :=
  match l with
  | [] => Ok ([], [])
  | x :: l' =>
      do r <- (if md_pool (md_of sc m)
               then match x with VMsg _ _ _ => rec m x | _ => Ok (x, []) end
               else match x with VMsg _ _ _ => Ok (new_msg (md_of sc m), []) | _ => Panic end);
      do r' <- reset_elems m l';
      Ok (fst r :: fst r', snd r ++ snd r')
  end.

(** Go [s[:0]]: nil stays nil. *)
Definition truncate (v : val) : val :=
  match v with
  | VList _ => VList []
  | VBytes _ | VRefB _ _ => VBytes []
  | _ => VNil
  end.

(** pool.go:53-88: one field.  Returns what is saved for the struct member
    ([None]: not saved), its hidden elements, and the objects returned to pools. *)
Definition reset_field (f : fdesc) (slots : list val) (hid : list (list val))
  : res unit (option (val * list val) * puts) :=
  let v := slot slots (f_slot f) in
  match f_ty f with
  | TMap _ _ => Ok (None, [])
  | TField (LRepeated _) k =>
      match classify k with
      | CMsg m | CGrp m =>
          do r <- reset_elems m (vlist v);
          Ok (Some (truncate v, fst r ++ nth (f_slot f) hid []), snd r)
      | _ => Ok (Some (truncate v, []), [])
      end
  | TField LOneof k =>
      match classify k with
      | CMsg m | CGrp m =>
          match v with
          | VOneof n x =>
              if (n =? f_num f) && md_pool (md_of sc m)
              then do p <- return_sub m x; Ok (None, p) else Ok (None, [])
          | _ => Ok (None, [])
          end
      | _ => Ok (None, [])
      end
  | TField _ k =>
      match classify k with
      | CMsg m | CGrp m =>
          if md_pool (md_of sc m) then do p <- return_sub m v; Ok (None, p) else Ok (None, [])
      | CByt => Ok (Some (truncate v, []), [])
      | _ => Ok (None, [])
      end
  end.

(** pool.go:53-93: the walk over the fields; the accumulator is the message after
    [m.Reset()] with the members saved so far restored. *)
Fixpoint reset_fields (slots : list val) (hid : list (list val)) (fs : list fdesc)
  (acc : list val) (acch : list (list val)) : res unit (list val * list (list val) * puts) :=
  match fs with
  | [] => Ok (acc, acch, [])
  | f :: fs' =>
      do r <- reset_field f slots hid;
      let '(saved, p) := r in
      let '(acc, acch) :=
        match saved with
        | Some (x, h) => (list_set acc (f_slot f) x, list_set acch (f_slot f) h)
        | None => (acc, acch)
        end in
      do r' <- reset_fields slots hid fs' acc acch;
      let '(a, h, p') := r' in
      Ok (a, h, p ++ p')
  end.

(** pool.go:50-95: body of ResetVT. *)
Definition reset_body (m : nat) (v : val) : res unit (val * puts) :=
  match v with
  | VMsg slots _ hid =>
      let md := md_of sc m in
      do r <- reset_fields slots hid (md_fields md) (zero_slots md) (repeat [] (md_nslots md));
      let '(a, h, p) := r in
      Ok (VMsg a [] h, p)
  | _ => Ok (v, [])
  end.
End Pool.

(** Recursion through sub-messages. *)
Fixpoint reset_msg (sc : schema) (n : nat) (m : nat) (v : val) : res unit (val * puts) :=
  match n with
  | O => NoFuel
  | S n' => reset_body sc (reset_msg sc n') m v
  end.

(** [func (m *T) ResetVT()]: the receiver after the call and everything put into
    the pools on the way. *)
Definition ResetVT (sc : schema) (m : nat) (v : val) : res unit (val * puts) :=
  reset_msg sc (S (vdepth v)) m v.

(** [func (m *T) ReturnToVTPool()] (pool.go:97-102). *)
Definition ReturnToVTPool (sc : schema) (m : nat) (v : val) : res unit puts :=
  match v with
  | VMsg _ _ _ => do r <- ResetVT sc m v; Ok (snd r ++ [(m, fst r)])
  | _ => Ok []
  end.

(** UnmarshalVT when [FromVTPool] (pool.go:104-106) answers according to [al]: the
    message of type [m] obtained while the call at [path] (the iNdEx values of the
    enclosing calls) is at iNdEx [i] is [al (i :: path) m]. *)
Definition pool_env (al : list Z -> nat -> val) (path : list Z) : uenv :=
  mkEnv (fun i m => al (i :: path) m) (fun _ s => VStr s) (fun _ s => VBytes s).

Fixpoint um_pool (sc : schema) (al : list Z -> nat -> val) (n : nat) (path : list Z) (m : nat)
  (data : list Z) (v : val) : res val val :=
  match n with
  | O => NoFuel
  | S n' => um_body sc (fun i => um_pool sc al n' (i :: path)) (pool_env al path) m data v
  end.

(** [func (m *T) UnmarshalVT(dAtA []byte) error] in the presence of pools. *)
Definition UnmarshalVT_pool (sc : schema) (al : list Z -> nat -> val) (m : nat)
  (data : list Z) (v : val) : res val val :=
  um_pool sc al (S (length data)) [] m data v.
