(** Model of /repo/features/clone/clone.go: what the generated CloneVT computes. *)
From Coq Require Import ZArith List Bool.
From Verif Require Import Base Schema Value Helpers Unmarshal Equal.
Import ListNotations.
Open Scope Z_scope.

Section Clone.
Variable sc : schema.
(** The CloneVT methods one level down. *)
Variable rec : step -> nat -> val -> val.

(** clone.go:72-98 cloneFieldSingular (and the direct calls of clone.go:205-213,
    251-261, which coincide with it for messages that have helpers). *)
Definition cloneFieldSingular (st : step) (k : kind) (v : val) : val :=
  match classify k with
  | CMsg m | CGrp m =>
      if md_foreign (md_of sc m) then up_clone (sc_up sc) m v else rec st m v
  | CByt => VBytes (vbytes v)
  | _ => v
  end.

(** [for k, v := range rhs { tmpContainer[k] = ... }] on a list (clone.go:140-142). *)
Fixpoint clone_list (s : nat) (k : kind) (i : nat) (l : list val) : list val :=
  match l with
  | [] => []
  | v :: l' => cloneFieldSingular (SElem s i) k v :: clone_list s k (S i) l'
  end.

(** The value assigned to struct member F of the clone [r] for a field that is not
    in a oneof; [cur] is what [r.F] holds before (clone.go:101-152, 188-221). *)
Definition clone_field (f : fdesc) (rhs cur : val) : val :=
  match f_ty f with
  | TMap kk vk =>
      match rhs with
      | VMap l => VMap (map (fun e => (fst e, cloneFieldSingular (SKey (f_slot f) (fst e)) vk (snd e))) l)
      | _ => cur
      end
  | TField (LRepeated _) k =>
      match rhs with
      | VList l => VList (clone_list (f_slot f) k 0 l)
      | _ => cur
      end
  | TField LImplicit k =>
      match classify k with
      | CByt => if is_nil rhs then cur else VBytes (vbytes rhs)
      | CMsg _ | CGrp _ => cloneFieldSingular (SField (f_slot f)) k rhs
      | _ => rhs
      end
  | TField _ k =>
      match classify k with
      | CByt => if is_nil rhs then cur else VBytes (vbytes rhs)
      | CMsg m | CGrp m =>
          if md_foreign (md_of sc m)
          then if is_nil rhs then cur else cloneFieldSingular (SField (f_slot f)) k rhs
          else cloneFieldSingular (SField (f_slot f)) k rhs
      | _ => if is_nil rhs then cur else VPtr (deref rhs)
      end
  end.

(** clone.go:234-268: CloneVT of a oneof wrapper, applied to its member [x]. *)
Definition clone_member (s : nat) (k : kind) (x : val) : val :=
  match classify k with
  | CByt => if is_nil x then VNil else VBytes (vbytes x)
  | CMsg m | CGrp m =>
      if md_foreign (md_of sc m)
      then if is_nil x then VNil else cloneFieldSingular (SField s) k x
      else cloneFieldSingular (SField s) k x
  | _ => x
  end.

(** clone.go:52-69 cloneOneofField. *)
Definition clone_oneof (md : mdesc) (s : nat) (rhs cur : val) : val :=
  match rhs with
  | VOneof n x =>
      match find_field n (md_fields md) with
      | Some f => match f_ty f with
                  | TField _ k => VOneof n (clone_member s k x)
                  | TMap _ _ => cur
                  end
      | None => cur
      end
  | _ => cur
  end.

(** Assignment [r.F = ...] on the freshly allocated clone. *)
Definition clone_assign (slots : list val) (g : fdesc -> val -> val -> val)
  (fs : list fdesc) (r : list val) : list val :=
  fold_left (fun r f =>
    list_set r (f_slot f) (g f (slot slots (f_slot f)) (slot r (f_slot f)))) fs r.

(** Spare capacity of the clone's lists: a list that is cloned gets a new backing
    array (clone.go:131-144, [make] with the length as capacity), the others keep
    the one of the object obtained. *)
Definition clone_hid (slots : list val) (fs : list fdesc) (h : list (list val)) : list (list val) :=
  fold_left (fun h f =>
    match f_ty f, slot slots (f_slot f) with
    | TField (LRepeated _) _, VList _ => list_set h (f_slot f) []
    | _, _ => h
    end) fs h.

(** clone.go:172-232 body: [alloc] is the object obtained at clone.go:184 (a new
    message, or one from the pool, generatedfile.go:54-65). *)
Definition clone_body (alloc : val) (m : nat) (v : val) : val :=
  match v with
  | VMsg slots unk _ =>
      let md := md_of sc m in
      match alloc with
      | VMsg r u h =>
          let r := clone_assign slots clone_field
                     (filter (fun f => negb (is_oneof f)) (md_fields md)) r in
          let r := fold_left (fun r s =>
                     list_set r s (clone_oneof md s (slot slots s) (slot r s)))
                     (oneof_slots [] (md_fields md)) r in
          VMsg r (if md_keep md then (if 0 <? zlen unk then unk else u) else u)
            (clone_hid slots (md_fields md) h)
      | _ => VNil
      end
  | _ => VNil
  end.
End Clone.

(** Recursion through sub-messages. [al path m] is the object [Alloc] obtains for
    the message at [path]. *)
Fixpoint clone_msg (sc : schema) (al : list step -> nat -> val) (n : nat) (path : list step)
  (m : nat) (v : val) : val :=
  match n with
  | O => VNil
  | S n' => clone_body sc (fun st => clone_msg sc al n' (st :: path)) (al path m) m v
  end.

(** [func (m *T) CloneVT() *T] (clone.go:154-170) when Alloc answers according to
    [al]: the clone of the message at [path] is built in [al path m]. *)
Definition CloneVT_from (sc : schema) (al : list step -> nat -> val) (m : nat) (v : val) : val :=
  clone_msg sc al (S (vdepth v)) [] m v.
(** The same with newly allocated messages ([new(T)], or [&T{}] made by an empty
    pool). *)
Definition CloneVT (sc : schema) (m : nat) (v : val) : val :=
  CloneVT_from sc (fun _ m => new_msg (md_of sc m)) m v.
