(** Specifications for pooled messages: what is left in spare capacity, what a
    message taken from a pool looks like, and histories of pool operations. *)
From Coq Require Import ZArith List Bool.
From Verif Require Import Base Schema Value Unmarshal Clone Pool WireSpec Typing MsgSpec DecodeSpec ContentSpec.
Import ListNotations.
Open Scope Z_scope.

(** The value without what is left in spare capacity. *)
Fixpoint trim (v : val) : val :=
  match v with
  | VPtr x => VPtr (trim x)
  | VList l => VList (map trim l)
  | VMap l => VMap (map (fun e => (fst e, trim (snd e))) l)
  | VOneof n x => VOneof n (trim x)
  | VMsg s u _ => VMsg (map trim s) u []
  | _ => v
  end.

(** [spare m v m' x]: the message [x] of type [m'] is left in the spare capacity of
    a list in [v], at any depth. *)
Inductive spare (sc : schema) (m : nat) (v : val) (m' : nat) (x : val) : Prop :=
| spare_at m1 s u h f p k : within sc m v m1 (VMsg s u h) -> md_foreign (md_of sc m1) = false ->
    In f (md_fields (md_of sc m1)) -> f_ty f = TField (LRepeated p) k -> sub_of k = Some m' ->
    In x (nth (f_slot f) h []) -> x <> VNil -> spare sc m v m' x.

Definition is_bytes (k : kind) : bool := match k with KBytes => true | _ => false end.

(** A struct member that holds nothing: zero, no elements, unset.  [kept]: an empty
    but non-nil byte slice may be left in a bytes field with presence. *)
Definition holds_nothing (kept : bool) (f : fdesc) (x : val) : Prop :=
  match f_ty f with
  | TField LImplicit k => if is_num k then x = VInt 0 else if is_bytes k then x = VNil \/ x = VBytes [] else x = VStr []
  | TField (LOptional | LRequired) k => x = VNil \/ (kept = true /\ is_bytes k = true /\ x = VBytes [])
  | TField (LRepeated _) _ => x = VNil \/ x = VList []
  | TField LOneof _ => x = VNil
  | TMap _ _ => x = VNil \/ x = VMap []
  end.
(** A message all of whose members hold nothing. *)
Definition emptied (sc : schema) (m : nat) (v : val) : Prop :=
  exists s h, v = VMsg s [] h /\ length s = md_nslots (md_of sc m) /\
    forall f, In f (md_fields (md_of sc m)) -> holds_nothing (md_pool (md_of sc m)) f (slot s (f_slot f)).

(** A new message, up to spare capacity (upstream's Reset leaves it like this). *)
Definition as_new (sc : schema) (m : nat) (v : val) : Prop := exists h, v = VMsg (zero_slots (md_of sc m)) [] h.

(** Struct member [i] of message [m] is a list of messages, and [m] has a pool: only
    there does the code look at what is left in spare capacity, and only there are
    values with something left in spare capacity considered. *)
Definition message_list (sc : schema) (m i : nat) : Prop :=
  md_pool (md_of sc m) = true /\
  exists f p k m', In f (md_fields (md_of sc m)) /\ f_slot f = i /\ f_ty f = TField (LRepeated p) k /\ sub_of k = Some m'.

(** All messages left in spare capacity, at any depth, are emptied. *)
Inductive tidy (sc : schema) (m : nat) (v : val) : Prop :=
| tidy_mk : (forall m1 s u h i, within sc m v m1 (VMsg s u h) -> md_foreign (md_of sc m1) = false -> nth i h [] <> [] -> message_list sc m1 i) ->
    (forall m' x, spare sc m v m' x -> md_foreign (md_of sc m') = true -> as_new sc m' x) ->
    (forall m' x, spare sc m v m' x -> md_foreign (md_of sc m') = false -> emptied sc m' x) ->
    (forall m' x, spare sc m v m' x -> md_foreign (md_of sc m') = false -> tidy sc m' x) -> tidy sc m v.

(** Pools are generated for messages that have helpers. *)
Definition pools_local (sc : schema) : Prop := forall m, md_pool (md_of sc m) = true -> md_foreign (md_of sc m) = false.

(** No pooled message has a bytes field with presence. *)
Definition no_optional_bytes (sc : schema) : Prop :=
  forall m f l, md_pool (md_of sc m) = true -> In f (md_fields (md_of sc m)) -> f_ty f = TField l KBytes -> l <> LOptional /\ l <> LRequired.

(** Upstream's results have no messages in spare capacity. *)
Definition up_compact (sc : schema) : Prop := forall m bs v, up_ext (sc_up sc) m bs = Some v -> trim v = v.

(** * Histories
    The objects in the pools and the messages the program holds. *)
Record pstate := PState { in_pool : list (nat * val); live : list (nat * val) }.

(** What a call of FromVTPool for type [m] may return when the pools hold [p]: an
    object of that type, or a new message (sync.Pool's New). *)
Definition drawn (sc : schema) (p : list (nat * val)) (m : nat) (v : val) : Prop :=
  In (m, v) p \/ v = new_msg (md_of sc m).

(** One step of the program or of the runtime.  Pools may lose objects at any time
    (sync.Pool, garbage collection); where a call draws several objects this also
    removes those. *)
Inductive pstep (sc : schema) : pstate -> pstate -> Prop :=
| ps_lose p p' l : incl p' p -> pstep sc (PState p l) (PState p' l)
| ps_get p l m v : md_pool (md_of sc m) = true -> drawn sc p m v -> pstep sc (PState p l) (PState p ((m, v) :: l))
| ps_unmarshal p l1 l2 m v al data v' : md_foreign (md_of sc m) = false ->
    (forall path m', md_pool (md_of sc m') = true -> drawn sc p m' (al path m')) ->
    (UnmarshalVT_pool sc al m data v = Ok v' \/ exists e, UnmarshalVT_pool sc al m data v = Err e v') ->
    pstep sc (PState p (l1 ++ (m, v) :: l2)) (PState p (l1 ++ (m, v') :: l2))
| ps_edit p l1 l2 m v v' : wt_msg sc m v' -> tidy sc m v' ->
    pstep sc (PState p (l1 ++ (m, v) :: l2)) (PState p (l1 ++ (m, v') :: l2))
| ps_make p l m v : wt_msg sc m v -> tidy sc m v -> md_foreign (md_of sc m) = false -> pstep sc (PState p l) (PState p ((m, v) :: l))
| ps_forget p l1 l2 e : pstep sc (PState p (l1 ++ e :: l2)) (PState p (l1 ++ l2))
| ps_reset p l1 l2 m v v' q : md_pool (md_of sc m) = true -> ResetVT sc m v = Ok (v', q) ->
    pstep sc (PState p (l1 ++ (m, v) :: l2)) (PState (q ++ p) (l1 ++ (m, v') :: l2))
| ps_return p l1 l2 m v q : md_pool (md_of sc m) = true -> ReturnToVTPool sc m v = Ok q ->
    pstep sc (PState p (l1 ++ (m, v) :: l2)) (PState (q ++ p) (l1 ++ l2))
| ps_clone p l m v al : md_foreign (md_of sc m) = false -> In (m, v) l ->
    (forall path m', md_pool (md_of sc m') = true -> drawn sc p m' (al path m')) ->
    (forall path m', md_pool (md_of sc m') = false -> al path m' = new_msg (md_of sc m')) ->
    pstep sc (PState p l) (PState p ((m, CloneVT_from sc al m v) :: l)).

(** From a program start, any number of steps. *)
Inductive reachable (sc : schema) : pstate -> Prop :=
| reach_start : reachable sc (PState [] [])
| reach_step a b : reachable sc a -> pstep sc a b -> reachable sc b.

(** Two calls of UnmarshalVT with the same outcome: both succeed or both fail with
    the same error, and the receivers are related. *)
Inductive same_outcome (Q : val -> val -> Prop) : res val val -> res val val -> Prop :=
| so_ok a b : Q a b -> same_outcome Q (Ok a) (Ok b)
| so_err e a b : Q a b -> same_outcome Q (Err e a) (Err e b).
(** The same content, bit for bit; messages without helpers agree up to spare
    capacity. *)
Definition same_content (sc : schema) : nat -> val -> val -> Prop :=
  same_msg sc same_bits same_bits (fun _ x y => trim x = trim y).

(** No list of messages without pool contains nil, at any depth (messages without
    helpers, whose members the generated code does not touch, may do). *)
Definition no_nil_elements (sc : schema) (m : nat) (v : val) : Prop :=
  forall m1 s u h f p k m' l, within sc m v m1 (VMsg s u h) -> md_foreign (md_of sc m1) = false -> In f (md_fields (md_of sc m1)) -> f_ty f = TField (LRepeated p) k ->
    sub_of k = Some m' -> md_pool (md_of sc m') = false -> slot s (f_slot f) = VList l -> ~ In VNil l.
