(** Model of /repo/features/equal/equal.go: what the generated EqualVT computes. *)
From Coq Require Import ZArith List Bool.
From Verif Require Import Base Schema Value Helpers Unmarshal.
Import ListNotations.
Open Scope Z_scope.

(** Structural equality of values, used only to restrict the pointer-equality
    oracle below to pairs that can be the same object. *)
Fixpoint val_eqb (a b : val) : bool :=
  match a, b with
  | VNil, VNil => true
  | VInt x, VInt y => x =? y
  | VStr s, VStr t => if list_eq_dec Z.eq_dec s t then true else false
  | VBytes s, VBytes t => if list_eq_dec Z.eq_dec s t then true else false
  | VPtr x, VPtr y => val_eqb x y
  | VList l, VList l' =>
      (fix go (l l' : list val) : bool :=
         match l, l' with
         | [], [] => true
         | x :: l, y :: l' => val_eqb x y && go l l'
         | _, _ => false
         end) l l'
  | VMap l, VMap l' =>
      (fix go (l l' : list (val * val)) : bool :=
         match l, l' with
         | [], [] => true
         | (k, x) :: l, (k', y) :: l' => val_eqb k k' && val_eqb x y && go l l'
         | _, _ => false
         end) l l'
  | VOneof n x, VOneof n' y => (n =? n') && val_eqb x y
  | VMsg s u h, VMsg s' u' h' =>
      (fix go (l l' : list val) : bool :=
         match l, l' with
         | [], [] => true
         | x :: l, y :: l' => val_eqb x y && go l l'
         | _, _ => false
         end) s s'
      && (if list_eq_dec Z.eq_dec u u' then true else false)
      && (fix go2 (l l' : list (list val)) : bool :=
         match l, l' with
         | [], [] => true
         | x :: l, y :: l' =>
             (fix go (l l' : list val) : bool :=
                match l, l' with
                | [], [] => true
                | x :: l, y :: l' => val_eqb x y && go l l'
                | _, _ => false
                end) x y && go2 l l'
         | _, _ => false
         end) h h'
  | VRefS o s, VRefS o' t => (o =? o') && if list_eq_dec Z.eq_dec s t then true else false
  | VRefB o s, VRefB o' t => (o =? o') && if list_eq_dec Z.eq_dec s t then true else false
  | _, _ => false
  end.

(** A position inside a message, naming the pointers that get compared. *)
Inductive step : Type :=
| SField (s : nat)             (* the message a struct member points to *)
| SWrap (s : nat)              (* the oneof wrapper *)
| SElem (s : nat) (i : nat)    (* list element *)
| SKey (s : nat) (k : val).    (* map value *)

(** IEEE-754 NaN test on the bit pattern. *)
Definition is_nan (k : kind) (z : Z) : bool :=
  match k with
  | KDouble => 9218868437227405312 <? Z.land z 9223372036854775807
  | KFloat => 2139095040 <? Z.land z 2147483647
  | _ => false
  end.

(** Go [==] on two numbers (bool, integer, enum, float) of kind [k]. *)
Definition num_eqb (k : kind) (x y : Z) : bool :=
  match k with
  | KDouble | KFloat =>
      negb (is_nan k x) && negb (is_nan k y) && ((x =? y) || (is_zero k x && is_zero k y))
  | _ => x =? y
  end.

(** Go [string(a) == string(b)]. *)
Definition str_eqb (a b : list Z) : bool := if list_eq_dec Z.eq_dec a b then true else false.

(** Go [==] on two scalars of kind [k]. *)
Definition scalar_eqb (k : kind) (a b : val) : bool :=
  match classify k with
  | CStr => str_eqb (vbytes a) (vbytes b)
  | _ => num_eqb k (vint a) (vint b)
  end.

(** Map lookup [vy, ok := rhs[i]] (equal.go:203). *)
Fixpoint map_get (l : list (val * val)) (k : val) : option val :=
  match l with
  | [] => None
  | (k', v) :: l' => if key_eqb k k' then Some v else map_get l' k
  end.

Section Equal.
Variable sc : schema.
(** Pointer identity of the two operands and of the pointers at each position:
    an arbitrary oracle.  Two pointers can only be equal if they point to the
    same object, hence to identical content ([val_eqb]). *)
Variable here : bool.
Variable same : step -> bool.
(** The EqualVT methods one level down. *)
Variable rec : step -> nat -> val -> val -> bool.

(** Go [p == q] on pointers, given the oracle's answer. *)
Definition ptr_eqb (o : bool) (a b : val) : bool :=
  match a, b with
  | VNil, VNil => true
  | VNil, _ | _, VNil => false
  | _, _ => o && val_eqb a b
  end.

(** equal.go:237-245 compareScalar. *)
Definition compareScalar (k : kind) (nullable : bool) (p q : val) : bool :=
  if nullable then
    negb ((is_nil p && negb (is_nil q))
          || (negb (is_nil p) && (is_nil q || negb (scalar_eqb k (deref p) (deref q)))))
  else scalar_eqb k p q.

(** equal.go:247-256 compareBytes. *)
Definition compareBytes (nullable : bool) (p q : val) : bool :=
  if nullable then
    negb ((is_nil p && negb (is_nil q)) || (negb (is_nil p) && is_nil q)
          || negb (str_eqb (vbytes p) (vbytes q)))
  else str_eqb (vbytes p) (vbytes q).

(** equal.go:274-292: the call. *)
Definition call (st : step) (m : nat) (p q : val) : bool :=
  if md_foreign (md_of sc m) then up_eq (sc_up sc) m p q else rec st m p q.

(** equal.go:266-271. *)
Definition denil (m : nat) (v : val) : val :=
  match v with VNil => new_msg (md_of sc m) | _ => v end.

(** equal.go:258-293 compareCall. *)
Definition compareCall (st : step) (m : nat) (nullable : bool) (p q : val) : bool :=
  if nullable then call st m p q
  else if ptr_eqb (same st) p q then true
  else call st m (denil m p) (denil m q).

(** equal.go:216-229: the switch on the kind. *)
Definition compareKind (st : step) (k : kind) (nullable : bool) (p q : val) : bool :=
  match classify k with
  | CByt => compareBytes nullable p q
  | CMsg m | CGrp m => compareCall st m nullable p q
  | _ => compareScalar k nullable p q
  end.

(** equal.go:201-215: [for i, vx := range lhs { vy := rhs[i] ... }] on lists. *)
Fixpoint equal_list (s : nat) (k : kind) (i : nat) (l l' : list val) : bool :=
  match l, l' with
  | [], _ => true
  | x :: l, y :: l' => compareKind (SElem s i) k false x y && equal_list s k (S i) l l'
  | _ :: _, [] => false
  end.

(** The same on maps. *)
Definition equal_map (s : nat) (k : kind) (l l' : list (val * val)) : bool :=
  forallb (fun e => match map_get l' (fst e) with
                    | Some y => compareKind (SKey s (fst e)) k false (snd e) y
                    | None => false
                    end) l.

(** equal.go:190-235 field, with [nullable] as computed at equal.go:110. *)
Definition equal_field (f : fdesc) (a b : val) : bool :=
  match f_ty f with
  | TMap kk vk =>
      (zlen (vmap a) =? zlen (vmap b)) && equal_map (f_slot f) vk (vmap a) (vmap b)
  | TField (LRepeated _) k =>
      (zlen (vlist a) =? zlen (vlist b)) && equal_list (f_slot f) k 0 (vlist a) (vlist b)
  | TField lbl k =>
      let nullable := match classify k with
                      | CMsg _ | CGrp _ => true
                      | _ => match lbl with LImplicit => false | _ => true end
                      end in
      compareKind (SField (f_slot f)) k nullable a b
  end.

(** equal.go:83-104 and 143-188: a oneof. *)
Definition equal_oneof (md : mdesc) (s : nat) (a b : val) : bool :=
  match a, b with
  | VNil, VNil => true
  | VOneof n x, VOneof n' y =>
      if n =? n' then
        if same (SWrap s) && val_eqb a b then true
        else match find_field n (md_fields md) with
             | Some f => match f_ty f with
                         | TField _ k => compareKind (SField s) k false x y
                         | TMap _ _ => false
                         end
             | None => false
             end
      else false
  | _, _ => false
  end.

(** equal.go:57-121: body of EqualVT. *)
Definition equal_body (m : nat) (a b : val) : bool :=
  if ptr_eqb here a b then true else
  match a, b with
  | VMsg s u _, VMsg s' u' _ =>
      let md := md_of sc m in
      let fs := sort_fields (md_fields md) in
      forallb (fun i => equal_oneof md i (slot s i) (slot s' i)) (oneof_slots [] fs)
      && forallb (fun f => equal_field f (slot s (f_slot f)) (slot s' (f_slot f)))
                 (filter (fun f => negb (is_oneof f)) fs)
      && (if md_keep md then str_eqb u u' else true)
  | _, _ => false
  end.
End Equal.

(** Recursion through sub-messages.  [o] answers pointer comparisons by path. *)
Fixpoint equal_msg (sc : schema) (o : list step -> bool) (n : nat) (path : list step)
  (m : nat) (a b : val) : bool :=
  match n with
  | O => false
  | S n' => equal_body sc (o path) (fun st => o (st :: path))
              (fun st => equal_msg sc o n' (st :: path)) m a b
  end.

(** [func (this *T) EqualVT(that *T) bool].  The new empty messages substituted
    for nil ones have depth at most 1, whence the extra fuel. *)
Definition EqualVT (sc : schema) (o : list step -> bool) (m : nat) (a b : val) : bool :=
  equal_msg sc o (S (S (Nat.max (vdepth a) (vdepth b)))) [] m a b.
