(** Meaning of the Go fragment of GoSyntax.v: what the Go specification says the
    printed statements do.  [None] / [Stuck] is a run-time panic or a program the
    compiler rejects; the theorems show it does not happen. *)
From Coq Require Import ZArith List Bool String.
From Verif Require Import Base Schema Value Helpers GoSyntax.
Import ListNotations.
Open Scope string_scope.
Open Scope Z_scope.

(** Go types of the values that occur: what /repo/generator/generatedfile.go:67-108
    FieldGoType prints for struct members, and their elements. *)
Inductive gtype : Type :=
| TKind (k : kind)            (* int32, string, []byte, ... *)
| TPtr (k : kind)             (* *int32, *string *)
| TSlice (k : kind)           (* []int32, []*T *)
| TMapOf (kk vk : kind)       (* map[K]V *)
| TMsg (m : nat)              (* *T *)
| TWrap (m : nat) (num : Z)   (* *T_F: oneof wrapper; also an interface holding one *)
| TNone.                      (* a nil interface *)

(** Values: an int, a uint64, uint32 or uint8, a bool, nil, an error, a slice of the
    given length of the buffer [dAtA], or a value of one of the types above. *)
Inductive gval : Type :=
| GInt (z : Z)
| GU64 (z : Z)
| GU32 (z : Z)
| GU8 (z : Z)
| GBool (b : bool)
| GNil
| GErr (e : option err)
| GBuf (n : Z)
| GV (t : gtype) (v : val).

(** The Go type of a value of kind [k] (elements, map values, wrapper members). *)
Definition kind_type (k : kind) : gtype :=
  match k with KMessage m | KGroup m => TMsg m | _ => TKind k end.

(** The Go type of a struct member (generatedfile.go:67-108). *)
Definition field_type (t : ftype) : gtype :=
  match t with
  | TMap kk vk => TMapOf kk vk
  | TField (LRepeated _) k => TSlice k
  | TField (LOptional | LRequired) k =>
      match k with
      | KMessage _ | KGroup _ | KBytes => kind_type k
      | _ => TPtr k
      end
  | TField _ k => kind_type k
  end.

Section Sem.
Variable sc : schema.

(** [x.F]: selecting a member of a nil pointer panics.  The member of a oneof has
    an interface type; the value of an interface is the wrapper in it. *)
Definition select (g : gval) (f : member) : option gval :=
  match g, f with
  | GV (TMsg m) (VMsg slots unk _), MSlot s =>
      match find (fun f => Nat.eqb (f_slot f) s) (md_fields (md_of sc m)) with
      | Some f =>
          if is_oneof f then
            match slot slots s with
            | VOneof num x => Some (GV (TWrap m num) (VOneof num x))
            | VNil => Some (GV TNone VNil)
            | _ => None
            end
          else Some (GV (field_type (f_ty f)) (slot slots s))
      | None => None
      end
  | GV (TMsg m) (VMsg slots unk _), MUnknown => Some (GV (TKind KBytes) (VBytes unk))
  | GV (TWrap m num) (VOneof num' x), MIn n =>
      if (n =? num) && (num =? num') then
        match find_field num (md_fields (md_of sc m)) with
        | Some f =>
            match f_ty f with
            | TField _ k => Some (GV (kind_type k) x)
            | TMap _ _ => None
            end
        | None => None
        end
      else None
  | _, _ => None
  end.

(** [*x] *)
Definition load (g : gval) : option gval :=
  match g with GV (TPtr k) (VPtr v) => Some (GV (TKind k) v) | _ => None end.

(** [len(x)] *)
Definition length_of (g : gval) : option gval :=
  match g with
  | GBuf n => Some (GInt n)
  | GV (TKind KString) (VStr s | VRefS _ s) => Some (GInt (zlen s))
  | GV (TKind KBytes) (VBytes s | VRefB _ s) => Some (GInt (zlen s))
  | GV (TKind KBytes) VNil => Some (GInt 0)
  | GV (TSlice _) (VList l) => Some (GInt (zlen l))
  | GV (TMapOf _ _) (VMap l) => Some (GInt (zlen l))
  | GV (TSlice _ | TMapOf _ _) VNil => Some (GInt 0)
  | _ => None
  end.

(** [uint64(x)]: of an int, or of a number; floats are not converted by the
    generated code, nor are booleans. *)
Definition to_u64 (g : gval) : option gval :=
  match g with
  | GInt z | GU64 z | GU32 z => Some (GU64 (u64 z))
  | GV (TKind (KInt64 | KUint64 | KInt32 | KUint32 | KEnum | KSint32 | KSint64
               | KFixed64 | KFixed32 | KSfixed64 | KSfixed32)) (VInt z) => Some (GU64 (u64 z))
  | _ => None
  end.

(** [uint32(x)] *)
Definition to_u32 (g : gval) : option gval :=
  match g with
  | GU32 z => Some (GU32 (u32 z))
  | GV (TKind (KInt32 | KUint32 | KEnum | KSint32 | KFixed32 | KSfixed32)) (VInt z) => Some (GU32 (u32 z))
  | _ => None
  end.

(** An unsigned number. *)
Definition unsigned (g : gval) : option Z :=
  match g with
  | GU64 z | GU32 z => Some z
  | GV (TKind (KUint64 | KUint32)) (VInt z) => Some z
  | _ => None
  end.

(** [uint8(x)] *)
Definition to_u8 (g : gval) : option gval :=
  match unsigned g with Some z => Some (GU8 (z mod 256)) | None => None end.

(** [math.Float64bits(float64(x))] and [math.Float32bits(float32(x))]: a float is
    represented by its bits. *)
Definition bits64 (g : gval) : option gval :=
  match g with GV (TKind KDouble) (VInt z) => Some (GU64 z) | _ => None end.
Definition bits32 (g : gval) : option gval :=
  match g with GV (TKind KFloat) (VInt z) => Some (GU32 z) | _ => None end.

(** [x << n] *)
Definition shift_left (g : gval) (n : Z) : option gval :=
  match g with
  | GU64 z => Some (GU64 (u64 (Z.shiftl z n)))
  | GU32 z => Some (GU32 (u32 (Z.shiftl z n)))
  | _ => None
  end.

(** [x >> n]: arithmetic for signed types, logical for unsigned ones. *)
Definition shift_right (g : gval) (n : Z) : option gval :=
  match g with
  | GU64 z => Some (GU64 (Z.shiftr z n))
  | GU32 z => Some (GU32 (Z.shiftr z n))
  | GV (TKind (KSint32 | KSint64 | KUint32 | KUint64) as t) (VInt z) => Some (GV t (VInt (Z.shiftr z n)))
  | _ => None
  end.

(** [x ^ y], [x & y], [x | y] of unsigned numbers of the same type, or a number and a
    constant. *)
Definition bit_op (f : Z -> Z -> Z) (a b : option gval) : option gval :=
  match a, b with
  | Some (GU64 x), Some (GU64 y | GInt y) => Some (GU64 (f x y))
  | Some (GU32 x), Some (GU32 y | GInt y) => Some (GU32 (f x y))
  | _, _ => None
  end.

(** Equality of map keys. *)
Definition key_eqb (a b : val) : bool :=
  match a, b with
  | VInt x, VInt y => x =? y
  | VStr x, VStr y => if list_eq_dec Z.eq_dec x y then true else false
  | _, _ => false
  end.

(** [x[i]]: a slice panics out of range; a map without the key would give a zero
    value, which the generated code never asks for. *)
Definition index_of (g i : gval) : option gval :=
  match g, i with
  | GV (TSlice k) (VList l), GInt z =>
      if z <? 0 then None
      else match nth_error l (Z.to_nat z) with Some x => Some (GV (kind_type k) x) | None => None end
  | GV (TMapOf kk vk) (VMap l), GV (TKind _) x =>
      match find (fun e => key_eqb x (fst e)) l with Some e => Some (GV (kind_type vk) (snd e)) | None => None end
  | _, _ => None
  end.

(** [x == nil] for a pointer, slice, map or interface. *)
Definition nil_test (g : gval) : option bool :=
  match g with
  | GV (TKind KBytes | TPtr _ | TSlice _ | TMapOf _ _ | TMsg _ | TWrap _ _ | TNone) v =>
      Some (is_nil v)
  | GErr e => Some (match e with None => true | Some _ => false end)
  | _ => None
  end.

(** [a == b]: a pointer with nil, or a number with an int constant. *)
Definition equals (a b : gval) : option bool :=
  match a, b with
  | g, GNil => nil_test g
  | GInt x, GInt y => Some (x =? y)
  | GV (TKind (KString | KBytes | KBool | KMessage _ | KGroup _)) _, _ => None
  | GV (TKind k) (VInt z), GInt 0 => Some (is_zero k z)
  | _, _ => None
  end.

(** int arithmetic wraps around. *)
Definition int_op (f : Z -> Z -> Z) (a b : option gval) : option gval :=
  match a, b with
  | Some (GInt x), Some (GInt y) => Some (GInt (s64 (f x y)))
  | _, _ => None
  end.

(** The condition of an if statement: a bool. *)
Definition truth (g : option gval) : option bool :=
  match g with
  | Some (GBool b) => Some b
  | Some (GV (TKind KBool) (VInt z)) => Some (negb (z =? 0))
  | _ => None
  end.

(** The helper functions of /repo/protohelpers/protohelpers.go:35-42. *)
Definition helper (h : string) (g : option gval) : option gval :=
  match g with
  | Some (GU64 z) =>
      if String.eqb h "SizeOfVarint" then Some (GInt (SizeOfVarint z))
      else if String.eqb h "SizeOfZigzag" then Some (GInt (SizeOfZigzag z))
      else None
  | _ => None
  end.

(** google.golang.org/protobuf/proto.Size. *)
Definition proto_fn (h : string) (g : option gval) : option gval :=
  match g with
  | Some (GV (TMsg m) v) =>
      if String.eqb h "Size" then Some (GInt (up_size (sc_up sc) m v)) else None
  | _ => None
  end.

(** Local variables, innermost first. *)
Definition env := list (string * gval).
Fixpoint lookup (x : string) (E : env) : option gval :=
  match E with
  | [] => None
  | (y, g) :: E' => if String.eqb x y then Some g else lookup x E'
  end.
Fixpoint assign (x : string) (g : gval) (E : env) : option env :=
  match E with
  | [] => None
  | (y, h) :: E' =>
      if String.eqb x y then Some ((y, g) :: E')
      else match assign x g E' with Some E'' => Some ((y, h) :: E'') | None => None end
  end.

(** The methods of the values one call further down. *)
Variable call : gval -> string -> option gval.

Fixpoint eval (E : env) (e : expr) : option gval :=
  match e with
  | EVar x => lookup x E
  | EInt z => Some (GInt z)
  | ENil => Some GNil
  | ESel e f => match eval E e with Some g => select g f | None => None end
  | EStar e => match eval E e with Some g => load g | None => None end
  | ELen e => match eval E e with Some g => length_of g | None => None end
  | EU64 e => match eval E e with Some g => to_u64 g | None => None end
  | EAdd a b => int_op Z.add (eval E a) (eval E b)
  | EMul a b => int_op Z.mul (eval E a) (eval E b)
  | EEq a b =>
      match eval E a, eval E b with
      | Some x, Some y => match equals x y with Some r => Some (GBool r) | None => None end
      | _, _ => None
      end
  | ENe a b =>
      match eval E a, eval E b with
      | Some x, Some y => match equals x y with Some r => Some (GBool (negb r)) | None => None end
      | _, _ => None
      end
  | EGt a b =>
      match eval E a, eval E b with
      | Some (GInt x), Some (GInt y) => Some (GBool (y <? x))
      | _, _ => None
      end
  | EHelper h e => helper h (eval E e)
  | EMeth e h => match eval E e with Some g => call g h | None => None end
  | EProto h e => proto_fn h (eval E e)
  | ECast m e =>
      match eval E e with
      | Some (GV (TMsg m') v) => if Nat.eqb m m' then Some (GV (TMsg m) v) else None
      | _ => None
      end
  | ECastIn n e =>
      match eval E e with
      | Some (GV (TWrap m n') v) => if n =? n' then Some (GV (TWrap m n') v) else None
      | _ => None
      end
  | EPar e => eval E e
  | EHex z => Some (GInt z)
  | EIdx a b =>
      match eval E a, eval E b with Some x, Some y => index_of x y | _, _ => None end
  | ESub a b => int_op Z.sub (eval E a) (eval E b)
  | EU32 e => match eval E e with Some g => to_u32 g | None => None end
  | EU8 e => match eval E e with Some g => to_u8 g | None => None end
  | EF64 e => match eval E e with Some g => bits64 g | None => None end
  | EF32 e => match eval E e with Some g => bits32 g | None => None end
  | EShl e n => match eval E e with Some g => shift_left g n | None => None end
  | EShr e n => match eval E e with Some g => shift_right g n | None => None end
  | EXor a b => bit_op Z.lxor (eval E a) (eval E b)
  | EAnd a b => bit_op Z.land (eval E a) (eval E b)
  | EOr a b => bit_op Z.lor (eval E a) (eval E b)
  | ERequiredErr _ => Some (GErr (Some ERequired))
  | EPrefix x => match lookup x E with Some (GInt z) => Some (GBuf z) | _ => None end
  end.

(** What a statement does: go on, return from the method, or fail. *)
Inductive out : Type := Next (E : env) | Ret (g : gval) | Stuck.

(** The end of a block: the variables declared in it are gone. *)
Definition leave (E : env) (o : out) : out :=
  match o with Next E' => Next (skipn (List.length E' - List.length E) E') | _ => o end.

(** The values a range clause goes through. *)
Definition items (g : gval) : option (list (gval * gval)) :=
  match g with
  | GV (TSlice k) (VList l) => Some (map (fun x => (GNil, GV (kind_type k) x)) l)
  | GV (TMapOf kk vk) (VMap l) =>
      Some (map (fun e => (GV (kind_type kk) (fst e), GV (kind_type vk) (snd e))) l)
  | GV (TSlice _ | TMapOf _ _) VNil => Some []
  | _ => None
  end.

(** Does the dynamic type of [g] have the generated methods?  A nil interface has
    no dynamic type. *)
Definition has_helpers (g : gval) : option bool :=
  match g with
  | GV (TMsg m) _ => Some (negb (md_foreign (md_of sc m)))
  | GV (TWrap _ _) _ => Some true
  | GV TNone _ => Some false
  | _ => None
  end.

(** The loop of a range clause; [body] runs with the two variables in scope.
    (The index of a slice is not represented: the generated code ignores it.) *)
Fixpoint loop (body : env -> out) (k v : string) (l : list (gval * gval)) (E : env) : out :=
  match l with
  | [] => Next E
  | (a, b) :: l' =>
      match leave E (body ((v, b) :: (k, a) :: E)) with
      | Next E' => loop body k v l' E'
      | o => o
      end
  end.

(** [num]: the dynamic type of the operand of the enclosing type switch. *)
Fixpoint exec (num : Z) (s : stmt) (E : env) : out :=
  match s with
  | SSkip => Next E
  | SSeq a b => match exec num a E with Next E' => exec num b E' | o => o end
  | SVar x => Next ((x, GInt 0) :: E)
  | SBlank x => match lookup x E with Some _ => Next E | None => Stuck end
  | SDef x e => match eval E e with Some g => Next ((x, g) :: E) | None => Stuck end
  | SSet x e =>
      match eval E e with
      | Some g => match assign x g E with Some E' => Next E' | None => Stuck end
      | None => Stuck
      end
  | SAddTo x e =>
      match int_op Z.add (lookup x E) (eval E e) with
      | Some g => match assign x g E with Some E' => Next E' | None => Stuck end
      | None => Stuck
      end
  | SIf c a b =>
      match truth (eval E c) with
      | Some true => leave E (exec num a E)
      | Some false => leave E (exec num b E)
      | None => Stuck
      end
  | SAssert x _ e _ a b =>
      match eval E e with
      | Some g =>
          match has_helpers g with
          | Some true => leave E (exec num a (("ok", GBool true) :: (x, g) :: E))
          | Some false => leave E (exec num b (("ok", GBool false) :: (x, GNil) :: E))
          | None => Stuck
          end
      | None => Stuck
      end
  | SRange k v e a =>
      match eval E e with
      | Some g =>
          match items g with
          | Some l => loop (exec num a) k v l E
          | None => Stuck
          end
      | None => Stuck
      end
  | SSwitch x e a =>
      match eval E e with
      | Some (GV (TWrap m n) v) => leave E (exec n a ((x, GV (TWrap m n) v) :: E))
      | Some (GV TNone _) => Next E
      | _ => Stuck
      end
  | SCase n a rest =>
      if n =? num then exec num a E else exec num rest E
  | SReturn e => match eval E e with Some g => Ret g | None => Stuck end
  end.

(** A method body with receiver [m] and result [n int]. *)
Definition method (s : stmt) (g : gval) : option gval :=
  match exec 0 s [("n", GInt 0); ("m", g)] with Ret r => Some r | _ => None end.
End Sem.
