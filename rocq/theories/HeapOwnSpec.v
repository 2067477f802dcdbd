(** Specification for decoding on memory: a variable holds a tree and shares no object. *)
From Coq Require Import ZArith List Bool.
From Verif Require Import Base Schema Value Typing Heap HeapSpec HeapDec.
From Verif Require Unmarshal.
Import ListNotations.
Open Scope Z_scope.

(** [owns pl ru un V h P t v]: in the heap [h] the variable [v] holds the tree [t].  All objects
    it is made of satisfy [P], none of them is used at two places of the tree, and the byte
    arrays its strings alias satisfy [V]; if [un] (decoding with UnmarshalVTUnsafe), its byte
    slices may alias those as well.  That parts do not share objects is said by
    colorings [c] and [k] of the addresses: what part number [i] is made of has color [i].
    Arrays have at least the capacity of the slice.  What waits in the spare capacity of the
    lists of a message is the third component of the tree (only if [ru], as in "reuse"); if
    [pl] (some message type has a pool), no other message waits there. *)
Section Owns.
Variables pl ru un : bool.
Variables (V : nat -> Prop) (h : list obj).
Definition owns_bytes (P : nat -> Prop) (s : list Z) (v : hval) : Prop :=
  match v with
  | HSlice a off len cap => P a /\ (len <= cap)%nat /\ exists b, nth_error h a = Some (OBytes b) /\ slice b off len s /\ (off + cap <= length b)%nat
  | _ => False
  end.
Definition owns_key (k : val) (v : hval) : Prop :=
  match k with VInt z => v = HInt z | VStr s => reads_string V h s v | _ => False end.
(** Position [j] of the spare capacity of a slice. *)
Definition spare_at (v : hval) (j : nat) : hval :=
  match v with
  | HSlice a off len cap =>
      if Nat.ltb (len + j) cap then match nth_error h a with Some (OArr es) => nth (off + len + j) es HNil | _ => HNil end else HNil
  | _ => HNil
  end.
Definition part (P : nat -> Prop) (a : nat) (c : nat -> nat) (i : nat) : nat -> Prop := fun b => P b /\ b <> a /\ c b = i.
Fixpoint owns (P : nat -> Prop) (t : val) (v : hval) {struct t} : Prop :=
  match t with
  | VNil => v = HNil
  | VInt z => v = HInt z
  | VStr s => reads_string V h s v
  | VBytes s => owns_bytes P s v \/ (un = true /\ reads_bytes V h s v)
  | VPtr x => exists a y, v = HPtr a /\ P a /\ nth_error h a = Some (OCell y) /\ owns (fun b => P b /\ b <> a) x y
  | VOneof n x => exists a y, v = HPtr a /\ P a /\ nth_error h a = Some (OWrap n y) /\ owns (fun b => P b /\ b <> a) x y
  | VList l => exists a off cap es c, v = HSlice a off (length l) cap /\ P a /\ nth_error h a = Some (OArr es) /\
      (length l <= cap)%nat /\ (off + cap <= length es)%nat /\
      (fix all (i : nat) (l : list val) {struct l} : Prop :=
         match l with [] => True | x :: l' => owns (part P a c i) x (nth (off + i) es HNil) /\ all (S i) l' end) 0%nat l
  | VMap l => exists a es c, v = HMap a /\ P a /\ nth_error h a = Some (OMap es) /\
      (fix all (i : nat) (l : list (val * val)) (es : list (hval * hval)) {struct l} : Prop :=
         match l, es with
         | [], [] => True
         | (k, x) :: l', (e, y) :: es' => owns_key k e /\ owns (part P a c i) x y /\ all (S i) l' es'
         | _, _ => False
         end) 0%nat l es
  | VMsg slots unk hid => (ru = false -> hid = []) /\ exists a hs u c k, v = HPtr a /\ P a /\ nth_error h a = Some (OMsg hs u) /\
      ((u = HNil /\ unk = []) \/ owns_bytes (part P a c 0) unk u) /\ length hs = length slots /\ (length hid <= length slots)%nat /\
      (pl = true -> forall i j b, (length (nth i hid []) <= j)%nat -> spare_at (nth i hs HNil) j <> HPtr b) /\
      (fix all (i : nat) (l : list val) {struct l} : Prop :=
         match l with [] => True | x :: l' => owns (part (part P a c (S i)) a k 0) x (nth i hs HNil) /\ all (S i) l' end) 0%nat slots /\
      (fix left (i : nat) (hl : list (list val)) {struct hl} : Prop :=
         match hl with
         | [] => True
         | l :: hl' =>
             (fix each (j : nat) (l : list val) {struct l} : Prop :=
                match l with
                | [] => True
                | y :: l' => owns (part (part P a c (S i)) a k (S j)) y (spare_at (nth i hs HNil) j) /\ each (S j) l'
                end) 0%nat l /\ left (S i) hl'
         end) 0%nat hid
  | VRefS _ _ | VRefB _ _ => False
  end.
End Owns.

(** The input [p] holds the bytes [d]. *)
Definition input_is (p : input) (d : list Z) (h : list obj) : Prop :=
  exists b, nth_error h (in_arr p) = Some (OBytes b) /\ slice b (in_off p) (in_len p) d.
(** [P] and what has been allocated since. *)
Definition grown (P : nat -> Prop) (h h' : list obj) : nat -> Prop := fun b => P b \/ (length h <= b < length h')%nat.
(** From [h] to [h'] only objects in [P] changed. *)
Definition moves (P : nat -> Prop) (h h' : list obj) : Prop :=
  (length h <= length h')%nat /\ forall a, (a < length h)%nat -> ~ P a -> nth_error h' a = nth_error h a.
(** What upstream's decoders do to memory: if the target holds a tree of its own, the
    result is the tree the decoder gives; if it fails, the old one (a simplification, see
    Unmarshal.decodeMessage).  Only the target changes. *)
Definition up_owns (sc : schema) (pl ru un : bool) (which : mdesc -> Prop) (dec : nat -> list Z -> option val)
  (f : nat -> nat -> list Z -> list obj -> bool * list obj) : Prop :=
  forall (P V : nat -> Prop) m a bs h t, which (md_of sc m) ->
  (forall b, P b -> (b < length h)%nat) -> (forall b, V b -> (b < length h)%nat /\ ~ P b) -> wt_msg sc m t -> owns pl ru un V h P t (HPtr a) ->
  exists ok h', f m a bs h = (ok, h') /\ moves P h h' /\
    match dec m bs with
    | Some t' => ok = true /\ owns pl ru un V h' (grown P h h') t' (HPtr a)
    | None => ok = false /\ owns pl ru un V h' (grown P h h') t (HPtr a)
    end.
(** [left_empty t t']: as [t], except that in at most one place a nil member is an empty list
    (when decoding a packed list fails, the generated code may leave one behind). *)
Inductive left_empty : val -> val -> Prop :=
| em_same t : left_empty t t
| em_list : left_empty VNil (VList [])
| em_last l x y : left_empty x y -> left_empty (VList (l ++ [x])) (VList (l ++ [y]))
| em_oneof n x y : left_empty x y -> left_empty (VOneof n x) (VOneof n y)
| em_slot ss i x y u h : left_empty x y -> left_empty (VMsg (Unmarshal.list_set ss i x) u h) (VMsg (Unmarshal.list_set ss i y) u h).
