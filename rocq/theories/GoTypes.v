(** The static rules of Go for the code the generator prints: which types expressions have,
    which statements the compiler accepts.  This is a specification of the compiler (The Go
    Programming Language Specification, and "declared and not used", which the compiler reports
    as an error), not a file of /repo.  The struct types are those protoc-gen-go declares. *)
From Coq Require Import ZArith List Bool String Arith.
From Verif Require Import Base Schema Value Typing GoSyntax GoMarshal GenSize GenMarshal.
Import ListNotations.
Open Scope string_scope.
Open Scope Z_scope.
Open Scope list_scope.

(** The signatures of methods the printed code calls: [() int], [([]byte) (int, error)] and
    [([]byte) error]. *)
Inductive sig : Type := GSize | GSized | GUnm.

(** Types.  [YMsg m] is the struct type protoc-gen-go declares for message [m], [YOwn m] the type
    declared next to the generated code of a message with [type T pkg.T] (the packages of
    well-known types, generator.go:143-153); [YWrap], [YOwnWrap] the same for the wrapper of the
    oneof field with number [num]; [YOne m s] the interface type of the oneof at member [s];
    [YAny g h] an interface type with the one method [h]; [YArr n] is [n]uint64; [YConst z], [YNil]
    the untyped constants.  Enum types are not told apart; the variable [ok] of type assertions, which the
    condition reads, is left out. *)
Inductive gtyp : Type :=
| YInt | YI32 | YU32 | YI64 | YU64 | YU8 | YF32 | YF64 | YEnum | YBool | YStr | YErr | YUint | YArr (n : nat)
| YSlice (t : gtyp) | YMap (k v : gtyp) | YPtr (t : gtyp)
| YMsg (m : nat) | YOwn (m : nat) | YWrap (m : nat) (num : Z) | YOwnWrap (m : nat) (num : Z)
| YOne (m s : nat) | YAny (g : sig) (h : string)
| YConst (z : Z) | YNil.
Definition YBytes : gtyp := YSlice YU8.

Definition sig_eqb (a b : sig) : bool :=
  match a, b with GSize, GSize | GSized, GSized | GUnm, GUnm => true | _, _ => false end.

(** The same message. *)
Definition msg_eqb (a b : nat) : bool := Nat.eqb a b.

Fixpoint same (a b : gtyp) : bool :=
  match a, b with
  | YInt, YInt | YI32, YI32 | YU32, YU32 | YI64, YI64 | YU64, YU64 | YU8, YU8 | YF32, YF32
  | YF64, YF64 | YEnum, YEnum | YBool, YBool | YStr, YStr | YErr, YErr | YUint, YUint => true
  | YArr a, YArr b => Nat.eqb a b
  | YSlice a, YSlice b | YPtr a, YPtr b => same a b
  | YMap a c, YMap b d => same a b && same c d
  | YMsg a, YMsg b | YOwn a, YOwn b => msg_eqb a b
  | YWrap a c, YWrap b d | YOwnWrap a c, YOwnWrap b d => msg_eqb a b && (c =? d)
  | YOne a c, YOne b d => msg_eqb a b && Nat.eqb c d
  | YAny g h, YAny g' h' => sig_eqb g g' && String.eqb h h'
  | _, _ => false
  end.

Definition is_integer (t : gtyp) : bool :=
  match t with YInt | YI32 | YU32 | YI64 | YU64 | YU8 | YEnum | YUint => true | _ => false end.
Definition is_numeric (t : gtyp) : bool :=
  match t with YF32 | YF64 => true | _ => is_integer t end.

(** The integer constants a type can represent; [int] and [uint] may have 32 bits. *)
Definition fits (t : gtyp) (z : Z) : bool :=
  match t with
  | YInt | YI32 | YEnum => (-2147483648 <=? z) && (z <? 2147483648)
  | YU32 | YUint => (0 <=? z) && (z <? 4294967296)
  | YI64 => (-9223372036854775808 <=? z) && (z <? 9223372036854775808)
  | YU64 => (0 <=? z) && (z <? 18446744073709551616)
  | YU8 => (0 <=? z) && (z <? 256)
  | YF32 | YF64 => (-16777216 <=? z) && (z <=? 16777216)
  | _ => false
  end.

Definition is_nilable (t : gtyp) : bool :=
  match t with YSlice _ | YMap _ _ | YPtr _ | YOne _ _ | YAny _ _ | YErr => true | _ => false end.

(** May a value of the first type be assigned to a variable of the second? *)
Definition assignable (a t : gtyp) : bool :=
  match a with
  | YConst z => fits t z
  | YNil => is_nilable t
  | _ => same a t
  end.

(** Types whose values can be compared with each other by [==]. *)
Definition comparable (t : gtyp) : bool :=
  match t with YSlice _ | YMap _ _ | YMsg _ | YOwn _ | YWrap _ _ | YOwnWrap _ _ => false | _ => true end.

(** The operands of a binary operator get one type. *)
Definition common (a b : gtyp) : option gtyp :=
  match a, b with
  | YConst x, YConst _ => Some a
  | YConst _, _ => if assignable a b then Some b else None
  | _, YConst _ => if assignable b a then Some a else None
  | _, _ => if same a b then Some a else None
  end.

Section Check.
Variable sc : schema.
Variable dp : nat -> dispatch.
(** The option wrap (main.go: the methods are declared on types of the own package). *)
Variable wrap : bool.
(** The methods the selected features declare for the messages of the run. *)
Variable declared : string -> bool.

(** The types of the members protoc-gen-go gives to structs (FieldGoType,
    /repo/generator/generatedfile.go:71-115, states the same rules). *)
Definition kind_ty (k : kind) : gtyp :=
  match k with
  | KBool => YBool | KEnum => YEnum
  | KInt32 | KSint32 | KSfixed32 => YI32 | KUint32 | KFixed32 => YU32
  | KInt64 | KSint64 | KSfixed64 => YI64 | KUint64 | KFixed64 => YU64
  | KFloat => YF32 | KDouble => YF64 | KString => YStr | KBytes => YBytes
  | KMessage m | KGroup m => YPtr (YMsg m)
  end.
Definition field_ty (t : ftype) : gtyp :=
  match t with
  | TMap kk vk => YMap (kind_ty kk) (kind_ty vk)
  | TField (LRepeated _) k => YSlice (kind_ty k)
  | TField (LOptional | LRequired) k =>
      match k with KBytes | KMessage _ | KGroup _ => kind_ty k | _ => YPtr (kind_ty k) end
  | TField _ k => kind_ty k
  end.
Definition slot_ty (m s : nat) : option gtyp :=
  match find (fun f => Nat.eqb (f_slot f) s) (md_fields (md_of sc m)) with
  | Some f => Some (if is_oneof f then YOne m s else field_ty (f_ty f))
  | None => None
  end.
(** The oneof field with a number and the type of its wrapper's member. *)
Definition in_ty (m : nat) (num : Z) : option gtyp :=
  match find_field num (md_fields (md_of sc m)) with
  | Some f => if is_oneof f then Some (field_ty (f_ty f)) else None
  | None => None
  end.
(** Does the wrapper of the field with number [num] belong to the oneof at member [s]? *)
Definition implements (m s : nat) (num : Z) : bool :=
  match find_field num (md_fields (md_of sc m)) with
  | Some f => is_oneof f && Nat.eqb (f_slot f) s
  | None => false
  end.

(** The methods of a type.  Without the option wrap they are declared on the types of
    protoc-gen-go, for the messages of the run (IsLocalMessage); with it on the own types.  The
    packages of well-known types are generated with all features. *)
Definition is_local (m : nat) : bool := match dp m with DLocal => true | _ => false end.
Definition has_method (t : gtyp) (g : sig) (h : string) : bool :=
  match t with
  | YPtr (YMsg m) | YPtr (YWrap m _) => negb wrap && is_local m && declared h
  | YPtr (YOwn m) | YPtr (YOwnWrap m _) => if wrap then declared h else is_known (dp m)
  | YAny g' h' => sig_eqb g g' && String.eqb h h'
  | _ => false
  end.

Definition ctx : Type := list (string * gtyp).

(** The innermost variable with a name: how many are declared outside it, and its type. *)
Fixpoint find_var (x : string) (G : ctx) : option (nat * gtyp) :=
  match G with
  | [] => None
  | (y, t) :: G' => if String.eqb x y then Some (List.length G', t) else find_var x G'
  end.
Definition var_ty (G : ctx) (x : string) : option gtyp :=
  match find_var x G with Some (_, t) => Some t | None => None end.
Definition use (G : ctx) (x : string) : list nat :=
  match find_var x G with Some (i, _) => [i] | None => [] end.

Definition guard (b : bool) (t : gtyp) : option gtyp := if b then Some t else None.

(** The message whose struct a pointer points to. *)
Definition struct_of (t : gtyp) : option nat :=
  match t with YPtr (YMsg m) | YPtr (YOwn m) => Some m | _ => None end.

(** The type of an expression. *)
Fixpoint ty (G : ctx) (e : expr) : option gtyp :=
  let un e (f : gtyp -> option gtyp) := match ty G e with Some t => f t | None => None end in
  let arith a b (ok : gtyp -> bool) :=
    match ty G a, ty G b with
    | Some s, Some t =>
        match common s t with Some r => guard (ok r || match r with YConst _ => true | _ => false end) r | None => None end
    | _, _ => None
    end in
  match e with
  | EVar x => var_ty G x
  | EInt z | EHex z => Some (YConst z)
  | ENil => Some YNil
  | ESel e (MSlot s) => un e (fun t => match struct_of t with Some m => slot_ty m s | None => None end)
  | ESel e (MIn num) =>
      un e (fun t => match t with
                     | YPtr (YWrap m n) | YPtr (YOwnWrap m n) => if n =? num then in_ty m num else None
                     | _ => None
                     end)
  | ESel e MUnknown =>
      (* not exported: accessible in the package protoc-gen-go writes to *)
      un e (fun t => match t with YPtr (YMsg m) => guard (negb wrap && is_local m) YBytes | _ => None end)
  | EStar e => un e (fun t => match t with YPtr t => Some t | _ => None end)
  | ELen e => un e (fun t => match t with YStr | YSlice _ | YMap _ _ => Some YInt | _ => None end)
  | EU64 e => un e (fun t => guard (is_numeric t || assignable t YU64) YU64)
  | EU32 e => un e (fun t => guard (is_numeric t || assignable t YU32) YU32)
  | EU8 e => un e (fun t => guard (is_numeric t || assignable t YU8) YU8)
  | EF64 e => un e (fun t => guard (is_numeric t) YU64)
  | EF32 e => un e (fun t => guard (is_numeric t) YU32)
  | EAdd a b | ESub a b | EMul a b => arith a b is_numeric
  | EXor a b | EAnd a b | EOr a b => arith a b is_integer
  | EShl e _ | EShr e _ => un e (fun t => guard (is_integer t) t)
  | EEq a b | ENe a b =>
      match ty G a, ty G b with
      | Some s, Some YNil => guard (is_nilable s) YBool
      | Some s, Some t => match common s t with Some r => guard (comparable r) YBool | None => None end
      | _, _ => None
      end
  | EGt a b =>
      match ty G a, ty G b with
      | Some s, Some t => match common s t with Some r => guard (is_numeric r) YBool | None => None end
      | _, _ => None
      end
  | EHelper h e =>
      un e (fun t => guard ((String.eqb h "SizeOfVarint" || String.eqb h "SizeOfZigzag") && assignable t YU64) YInt)
  | EMeth e h => un e (fun t => guard (has_method t GSize h) YInt)
  | EProto h e => un e (fun t => match t with YPtr (YMsg _) => guard (String.eqb h "Size") YInt | _ => None end)
  | ECast m e =>
      un e (fun t => match struct_of t with
                     | Some m' => guard (msg_eqb m m' && (wrap || is_known (dp m))) (YPtr (YOwn m))
                     | None => None
                     end)
  | ECastIn num e =>
      un e (fun t => match t with
                     | YPtr (YWrap m n) | YPtr (YOwnWrap m n) =>
                         guard ((n =? num) && (wrap || is_known (dp m))) (YPtr (YOwnWrap m num))
                     | _ => None
                     end)
  | EPar e => ty G e
  | EIdx a b =>
      match ty G a, ty G b with
      | Some (YSlice t), Some i => guard (assignable i YInt) t
      | Some (YMap k v), Some i => guard (assignable i k) v
      | _, _ => None
      end
  | ERequiredErr _ => Some YErr
  | EPrefix x =>
      match var_ty G "dAtA", var_ty G x with
      | Some (YSlice YU8), Some YInt => Some YBytes
      | _, _ => None
      end
  end.

(** The variables whose values an expression reads. *)
Fixpoint reads (G : ctx) (e : expr) : list nat :=
  match e with
  | EVar x => use G x
  | EInt _ | EHex _ | ENil | ERequiredErr _ => []
  | ESel e _ | EStar e | ELen e | EU64 e | EU32 e | EU8 e | EF64 e | EF32 e | EShl e _ | EShr e _
  | EHelper _ e | EMeth e _ | EProto _ e | ECast _ e | ECastIn _ e | EPar e => reads G e
  | EAdd a b | ESub a b | EMul a b | EXor a b | EAnd a b | EOr a b | EEq a b | ENe a b | EGt a b
  | EIdx a b => reads G a ++ reads G b
  | EPrefix x => use G "dAtA" ++ use G x
  end.

(** Has the current block, which begins after [start] variables, a variable [x]? *)
Definition in_block (start : nat) (G : ctx) (x : string) : bool :=
  match find_var x G with Some (i, _) => Nat.leb start i | None => false end.

(** What checking a statement yields: the variables after it and those it reads. *)
Definition checked : Type := option (ctx * list nat).

(** The type a variable gets from an expression. *)
Definition default_ty (t : gtyp) : option gtyp :=
  match t with YConst z => guard (fits YInt z) YInt | YNil => None | _ => Some t end.

(** [x := ...] with a value of type [t]: [x] is new in the block. *)
Definition declare (start : nat) (G : ctx) (x : string) (t : gtyp) (u : list nat) : checked :=
  if in_block start G x then None else Some ((x, t) :: G, u).

(** [x, err := ...]: at least one is new in the block, the others keep their type. *)
Definition declare2 (start : nat) (G : ctx) (x : string) (t : gtyp) (u : list nat) : checked :=
  match in_block start G x, in_block start G "err" with
  | false, false => Some (("err", YErr) :: (x, t) :: G, u)
  | false, true =>
      match var_ty G "err" with Some YErr => Some ((x, t) :: G, u) | _ => None end
  | true, false =>
      match var_ty G x with Some t' => if same t t' then Some (("err", YErr) :: G, u) else None | None => None end
  | true, true => None
  end.

(** The end of a block: its variables have been read. *)
Definition close (G : ctx) (r : checked) : option (list nat) :=
  match r with
  | Some (G', u) =>
      if forallb (fun i => existsb (Nat.eqb i) u) (seq (List.length G) (List.length G' - List.length G))
      then Some (filter (fun i => Nat.ltb i (List.length G)) u) else None
  | None => None
  end.

Definition after (G : ctx) (r : option (list nat)) : checked :=
  match r with Some u => Some (G, u) | None => None end.

Definition both (a b : option (list nat)) : option (list nat) :=
  match a, b with Some u, Some v => Some (u ++ v) | _, _ => None end.

(** Assigning an expression to something of type [t]. *)
Definition gives (G : ctx) (e : expr) (t : gtyp) : bool :=
  match ty G e with Some t' => assignable t' t | None => false end.
Definition is_bool (G : ctx) (e : expr) : bool :=
  match ty G e with Some YBool => true | _ => false end.

(** Variables a [range] clause declares. *)
Definition bind (x : string) (t : gtyp) (G : ctx) : ctx := if String.eqb x "_" then G else (x, t) :: G.

Fixpoint case_nums (s : stmt) : list Z :=
  match s with SCase n _ rest => n :: case_nums rest | _ => [] end.
Fixpoint distinct (l : list Z) : bool :=
  match l with [] => true | z :: l' => negb (existsb (Z.eqb z) l') && distinct l' end.

(** A statement in a block that begins after [start] variables; [R]: the results of the function;
    [sw]: the variable and the oneof of the switch the statement is a case of.  Assigning to a
    variable, [+=] and [++] do not count as reading it. *)
Fixpoint check (R : list gtyp) (sw : option (string * nat * nat)) (start : nat) (G : ctx) (s : stmt) : checked :=
  let block G b := close G (check R None (List.length G) G b) in
  match s with
  | SSkip => Some (G, [])
  | SSeq a b =>
      match check R sw start G a with
      | Some (G1, u) =>
          match check R sw start G1 b with Some (G2, v) => Some (G2, u ++ v) | None => None end
      | None => None
      end
  | SVar x => declare start G x YInt []
  | SBlank x => match find_var x G with Some (i, _) => Some (G, [i]) | None => None end
  | SDef x e =>
      match ty G e with
      | Some t => match default_ty t with Some t' => declare start G x t' (reads G e) | None => None end
      | None => None
      end
  | SSet x e =>
      match var_ty G x with
      | Some t => if gives G e t then Some (G, reads G e) else None
      | None => None
      end
  | SAddTo x e =>
      match var_ty G x with
      | Some t => if is_numeric t && gives G e t then Some (G, reads G e) else None
      | None => None
      end
  | SIf c a b =>
      if is_bool G c then after G (both (Some (reads G c)) (both (block G a) (block G b))) else None
  | SAssert x boxed e h a b =>
      match ty G e with
      | Some t =>
          if boxed || match t with YOne _ _ => true | _ => false end then
            let G1 := (x, YAny GSize h) :: G in
            let r := both (Some (reads G e)) (both (block G1 a) (block G1 b)) in
            after G (close G (after G1 r))
          else None
      | None => None
      end
  | SRange k v e a =>
      match ty G e with
      | Some (YSlice t) =>
          let G1 := bind v t (bind k YInt G) in
          after G (both (Some (reads G e)) (close G (after G1 (block G1 a))))
      | Some (YMap t1 t2) =>
          let G1 := bind v t2 (bind k t1 G) in
          after G (both (Some (reads G e)) (close G (after G1 (block G1 a))))
      | _ => None
      end
  | SSwitch x e a =>
      match ty G e with
      | Some (YOne m s) =>
          if distinct (case_nums a) then
            match check R (Some (x, m, s)) (List.length G) G a with
            | Some (_, u) => after G (both (Some (reads G e)) (close G (Some ((x, YInt) :: G, u))))
            | None => None
            end
          else None
      | _ => None
      end
  | SCase num a rest =>
      match sw with
      | Some (x, m, s) =>
          if implements m s num then
            match block ((x, YPtr (YWrap m num)) :: G) a, check R sw start G rest with
            | Some u, Some (_, v) => Some (G, u ++ v)
            | _, _ => None
            end
          else None
      | None => None
      end
  | SReturn e =>
      match R with
      | [t] => if gives G e t then Some (G, reads G e) else None
      | _ => None
      end
  end.

(** Does the function end in a return statement? *)
Fixpoint returns (s : stmt) : bool :=
  match s with
  | SReturn _ => true
  | SSeq a SSkip => returns a
  | SSeq _ b => returns b
  | _ => false
  end.

(** The function with parameters and results [P] (which need not be read): its body is accepted. *)
Definition compiles (P : ctx) (R : list gtyp) (body : stmt) : bool :=
  match close P (check R None 0 P body) with Some _ => returns body | None => false end.

Fixpoint mcase_nums (s : mstmt) : list Z :=
  match s with MCase n _ rest => n :: mcase_nums rest | _ => [] end.

(** [dAtA[:x]] or [dAtA[i:]] makes sense. *)
Definition has_buffer (G : ctx) : bool :=
  match var_ty G "dAtA" with Some (YSlice YU8) => true | _ => false end.
Definition has_int (G : ctx) (x : string) : bool :=
  match var_ty G x with Some YInt => true | _ => false end.

(** The same for the statements of the marshal methods. *)
Fixpoint mcheck (R : list gtyp) (sw : option (string * nat * nat)) (start : nat) (G : ctx) (s : mstmt) : checked :=
  let block G b := close G (mcheck R None (List.length G) G b) in
  match s with
  | MSkip => Some (G, [])
  | MSeq a b =>
      match mcheck R sw start G a with
      | Some (G1, u) =>
          match mcheck R sw start G1 b with Some (G2, v) => Some (G2, u ++ v) | None => None end
      | None => None
      end
  | MDo s => check R None start G s
  | MSub e => if has_int G "i" && gives G e YInt then Some (G, reads G e) else None
  | MDec => if has_int G "i" then Some (G, []) else None
  | MPut j e =>
      if has_buffer G && has_int G j && gives G e YU8
      then Some (G, use G "dAtA" ++ use G j ++ reads G e) else None
  | MInc x =>
      match var_ty G x with Some t => if is_numeric t then Some (G, []) else None | None => None end
  | MShr x =>
      match var_ty G x with Some t => if is_integer t then Some (G, []) else None | None => None end
  | MFixed n e =>
      let t := match n with 8%nat => Some YU64 | 4%nat => Some YU32 | _ => None end in
      match t with
      | Some t =>
          if has_buffer G && has_int G "i" && gives G e t
          then Some (G, use G "dAtA" ++ use G "i" ++ reads G e) else None
      | None => None
      end
  | MCopy e =>
      if has_buffer G && has_int G "i"
         && match ty G e with Some (YStr | YSlice YU8) => true | _ => false end
      then Some (G, use G "dAtA" ++ use G "i" ++ reads G e) else None
  | MVarint e =>
      if has_buffer G && has_int G "i" && gives G e YU64
      then Some (G, use G "dAtA" ++ use G "i" ++ reads G e) else None
  | MIf c a b =>
      if is_bool G c then after G (both (Some (reads G c)) (both (block G a) (block G b))) else None
  | MDown e a =>
      match ty G (ELen e) with
      | Some YInt =>
          let G1 := ("iNdEx", YInt) :: G in
          after G (both (Some (reads G e)) (close G (after G1 (both (Some (use G1 "iNdEx")) (block G1 a)))))
      | _ => None
      end
  | MRange v e a =>
      match ty G e with
      | Some (YSlice t | YMap _ t) =>
          let G1 := bind v t G in
          after G (both (Some (reads G e)) (close G (after G1 (block G1 a))))
      | _ => None
      end
  | MKeys e a =>
      match ty G e with
      | Some (YMap t _) =>
          let G1 := ("k", t) :: G in
          after G (both (Some (reads G e)) (close G (after G1 (block G1 a))))
      | _ => None
      end
  | MWhile x a =>
      match var_ty G x with
      | Some t =>
          if is_integer t && fits t 128
          then after G (both (Some (use G x)) (block G a)) else None
      | None => None
      end
  | MCall x e h j =>
      match ty G e with
      | Some t =>
          if has_method t GSized h && has_buffer G && has_int G j
          then declare2 start G x YInt (reads G e ++ use G "dAtA" ++ use G j) else None
      | None => None
      end
  | MEncode e =>
      match ty G e with
      | Some (YPtr (YMsg _)) => declare2 start G "encoded" YBytes (reads G e)
      | _ => None
      end
  | MAssert x boxed e h a b =>
      match ty G e with
      | Some t =>
          if boxed || match t with YOne _ _ => true | _ => false end then
            let G1 := (x, YAny GSized h) :: G in
            let r := both (Some (reads G e)) (both (block G1 a) (block G1 b)) in
            after G (close G (after G1 r))
          else None
      | None => None
      end
  | MIs x e num a =>
      match ty G e with
      | Some (YOne m s) =>
          if implements m s num then
            let G1 := (x, YPtr (YWrap m num)) :: G in
            after G (close G (after G1 (both (Some (reads G e)) (block G1 a))))
          else None
      | _ => None
      end
  | MSwitch x e a =>
      match ty G e with
      | Some (YOne m s) =>
          if distinct (mcase_nums a) then
            match mcheck R (Some (x, m, s)) (List.length G) G a with
            | Some (_, u) => after G (both (Some (reads G e)) (close G (Some ((x, YInt) :: G, u))))
            | None => None
            end
          else None
      | _ => None
      end
  | MCase num a rest =>
      match sw with
      | Some (x, m, s) =>
          if implements m s num then
            match block ((x, YPtr (YWrap m num)) :: G) a, mcheck R sw start G rest with
            | Some u, Some (_, v) => Some (G, u ++ v)
            | _, _ => None
            end
          else None
      | None => None
      end
  | MMake => if has_buffer G && has_int G "size" then Some (G, use G "size") else None
  | MTail e h =>
      match ty G e, R with
      | Some t, [YInt; YErr] =>
          if has_method t GSized h && has_buffer G && has_int G "size"
          then Some (G, reads G e ++ use G "dAtA" ++ use G "size") else None
      | _, _ => None
      end
  | MReturn e r =>
      match R with
      | [t1; t2] => if gives G e t1 && gives G r t2 then Some (G, reads G e ++ reads G r) else None
      | _ => None
      end
  end.

Fixpoint mreturns (s : mstmt) : bool :=
  match s with
  | MReturn _ _ | MTail _ _ => true
  | MSeq a MSkip => mreturns a
  | MSeq _ b => mreturns b
  | _ => false
  end.

Definition mcompiles (P : ctx) (R : list gtyp) (body : mstmt) : bool :=
  match close P (mcheck R None 0 P body) with Some _ => mreturns body | None => false end.
End Check.
