(** Model of /repo/features/marshal/marshalto.go as a program that prints Go code: the
    functions below return the statements the [p.P(...)] calls print.  [c] is the value of
    the counter [numGen] that makes variables distinct (marshalto.go:29-38). *)
From Coq Require Import ZArith List Bool String.
From Verif Require Import Base Schema Value Helpers Marshal GoSyntax GoSem GoMarshal GenSize.
Import ListNotations.
Open Scope string_scope.
Open Scope Z_scope.
Open Scope list_scope.

Section Gen.
Variable dp : nat -> dispatch.
Variable strict : bool.

(** marshalto.go:533-558 methodMarshalToSizedBuffer, methodMarshalTo, methodMarshal. *)
Definition suffix : string := if strict then "Strict" else "".
Definition meth_sized : string := ("MarshalToSizedBufferVT" ++ suffix)%string.
Definition meth_to : string := ("MarshalToVT" ++ suffix)%string.
Definition meth_marshal : string := ("MarshalVT" ++ suffix)%string.

(** marshalto.go:64-66 encodeVarint. *)
Definition g_varint (e : expr) : mstmt := MVarint (EU64 e).

(** marshalto.go:68-81 encodeKey. *)
Definition g_key (num wt : Z) : list mstmt :=
  let x := Z.lor (u32 (Z.shiftl (u32 num) 3)) (u32 wt) in
  flat_map (fun b => [MDec; MPut "i" (EHex b)]) (rev (key_bytes 5 x)).

(** [if err != nil { return 0, err }] *)
Definition g_check : mstmt :=
  MIf (ENe (EVar "err") ENil) (mblock [MReturn (EInt 0) (EVar "err")]) MSkip.

(** marshalto.go:709-717 marshalBackwardSize. *)
Definition g_size (varInt : bool) : list mstmt :=
  [g_check; MSub (EVar "size")] ++ (if varInt then [g_varint (EVar "size")] else []).

(** marshalto.go:719-752 marshalBackward. *)
Definition g_backward (e : expr) (varInt : bool) (m : nat) : list mstmt :=
  match dp m with
  | DKnown => MCall "size" (ECast m e) meth_sized "i" :: g_size varInt
  | DLocal => MCall "size" e meth_sized "i" :: g_size varInt
  | DOther =>
      [MAssert "vtmsg" true e meth_sized
         (mblock (MCall "size" (EVar "vtmsg") meth_sized "i" :: g_size varInt))
         (mblock ([MEncode e; g_check; MSub (ELen (EVar "encoded")); MCopy (EVar "encoded")]
                  ++ (if varInt then [g_varint (ELen (EVar "encoded"))] else [])))]
  end.

(** [(uint32(e) << 1) ^ uint32((e >> 31))] and the same with 64 and 63 (marshalto.go:107,109). *)
Definition g_zigzag (k : kind) (e : expr) : expr :=
  match k with
  | KSint32 => EXor (EPar (EShl (EU32 e) 1)) (EU32 (EPar (EShr e 31)))
  | _ => EXor (EPar (EShl (EU64 e) 1)) (EU64 (EPar (EShr e 63)))
  end.

(** [if e { dAtA[i] = 1 } else { dAtA[i] = 0 }] after [i--] (marshalto.go:96-101). *)
Definition g_bool (e : expr) : list mstmt :=
  [MDec; MIf e (MPut "i" (EInt 1)) (MPut "i" (EInt 0))].

(** [math.Float64bits(float64(e))] for floating point numbers, [e] for others. *)
Definition g_bits (k : kind) (e : expr) : expr :=
  match k with KDouble => EF64 e | KFloat => EF32 e | _ => e end.

(** marshalto.go:54-62 encodeFixed64, encodeFixed32. *)
Definition g_fixed64 (e : expr) : list mstmt := [MSub (EInt 8); MFixed 8 (EU64 e)].
Definition g_fixed32 (e : expr) : list mstmt := [MSub (EInt 4); MFixed 4 (EU32 e)].

(** marshalto.go:83-113 mapField, and the same statements in field. *)
Definition g_value (k : kind) (e : expr) : list mstmt :=
  match classify k with
  | CFix64 => g_fixed64 (g_bits k e)
  | CFix32 => g_fixed32 (g_bits k e)
  | CVar => [g_varint e]
  | CBool => g_bool e
  | CStr | CByt => [MSub (ELen e); MCopy e; g_varint (ELen e)]
  | CZig => [g_varint (g_zigzag k e)]
  | CMsg m => g_backward e true m
  | CGrp m => g_backward e false m
  end.

(** A value and its key; marshalto.go:360-363 for groups. *)
Definition g_tagged (num : Z) (k : kind) (e : expr) : list mstmt :=
  match classify k with
  | CGrp _ => g_key num 4 ++ g_value k e ++ g_key num 3
  | _ => g_value k e ++ g_key num (ProtoWireType k)
  end.

Definition fvar (c : Z) : string := ("f" ++ itoa c)%string.
Definition xvar (c : Z) : string := ("x" ++ itoa c)%string.
Definition jvar (c : Z) : string := ("j" ++ itoa c)%string.
Definition total (c : Z) : string := ("pksize" ++ itoa c)%string.

(** The body of the loop over a list that is not packed, and the new counter: the branches
    [repeated] of marshalto.go:134-518. *)
Definition g_item (c num : Z) (k : kind) (e : expr) : list mstmt * Z :=
  match k with
  | KDouble => ([MDo (SDef (fvar (c + 1)) (EF64 e))] ++ g_fixed64 (EVar (fvar (c + 1))) ++ g_key num 1, c + 1)
  | KFloat => ([MDo (SDef (fvar (c + 1)) (EF32 e))] ++ g_fixed32 (EVar (fvar (c + 1))) ++ g_key num 5, c + 1)
  | KSint32 | KSint64 =>
      ([MDo (SDef (xvar (c + 1)) (g_zigzag k e)); g_varint (EVar (xvar (c + 1)))] ++ g_key num 0, c + 1)
  | _ => (g_tagged num k e, c)
  end.

(** [for x >= 1<<7 { dAtA[j] = uint8(uint64(x)&0x7f|0x80); ... }; dAtA[j] = uint8(x); j++]
    (marshalto.go:211-217, 447-453, 491-497). *)
Definition g_put7 (j x : string) : mstmt :=
  MPut j (EU8 (EOr (EAnd (EU64 (EVar x)) (EHex 127)) (EHex 128))).
Definition g_last (j x : string) : list mstmt := [MPut j (EU8 (EVar x)); MInc j].

(** The branches [packed] of marshalto.go:134-518, and the new counter. *)
Definition g_packed (c num : Z) (k : kind) (fe : expr) : list mstmt * Z :=
  let e := EIdx fe (EVar "iNdEx") in
  match classify k with
  | CFix64 =>
      match k with
      | KDouble =>
          ([MDown fe (mblock ([MDo (SDef (fvar (c + 1)) (EF64 e))] ++ g_fixed64 (EVar (fvar (c + 1)))));
            g_varint (EMul (ELen fe) (EInt 8))] ++ g_key num 2, c + 1)
      | _ => ([MDown fe (mblock (g_fixed64 e)); g_varint (EMul (ELen fe) (EInt 8))] ++ g_key num 2, c)
      end
  | CFix32 =>
      match k with
      | KFloat =>
          ([MDown fe (mblock ([MDo (SDef (fvar (c + 1)) (EF32 e))] ++ g_fixed32 (EVar (fvar (c + 1)))));
            g_varint (EMul (ELen fe) (EInt 4))] ++ g_key num 2, c + 1)
      | _ => ([MDown fe (mblock (g_fixed32 e)); g_varint (EMul (ELen fe) (EInt 4))] ++ g_key num 2, c)
      end
  | CBool => ([MDown fe (mblock (g_bool e)); g_varint (ELen fe)] ++ g_key num 2, c)
  | CVar =>
      let j := jvar (c + 1) in
      let t := total (c + 2) in
      let inner := [MWhile "num" (mblock [g_put7 j "num"; MShr "num"; MInc j])] ++ g_last j "num" in
      ([MDo (SVar t); MDo (SRange "_" "num" fe (SAddTo t (sov (EVar "num"))));
        MSub (EVar t); MDo (SDef j (EVar "i"));
        match k with
        | KInt64 | KInt32 | KEnum =>
            MRange "num1" fe (mblock (MDo (SDef "num" (EU64 (EVar "num1"))) :: inner))
        | _ => MRange "num" fe (mblock inner)
        end;
        g_varint (EVar t)] ++ g_key num 2, c + 2)
  | CZig =>
      let j := jvar (c + 1) in
      let t := total (c + 2) in
      let x := xvar (c + 3) in
      ([MDo (SVar t); MDo (SRange "_" "num" fe (SAddTo t (soz (EVar "num"))));
        MSub (EVar t); MDo (SDef j (EVar "i"));
        MRange "num" fe (mblock ([MDo (SDef x (g_zigzag k (EVar "num")));
          MWhile x (mblock [g_put7 j x; MInc j; MShr x])] ++ g_last j x));
        g_varint (EVar t)] ++ g_key num 2, c + 3)
  | _ => ([], c)
  end.

(** Is the struct member of a field with presence a pointer to the value? *)
Definition is_pointer (k : kind) : bool :=
  match k with KMessage _ | KGroup _ | KBytes => false | _ => true end.

(** The condition under which a field without presence is encoded. *)
Definition g_set (k : kind) (fe : expr) : expr :=
  match classify k with
  | CBool => fe
  | CStr | CByt => EGt (ELen fe) (EInt 0)
  | _ => ENe fe (EInt 0)
  end.

(** marshalto.go:115-532 field; in a wrapper, [m.F] is the wrapper's member. *)
Definition g_field (c : Z) (f : fdesc) : mstmt * Z :=
  let num := f_num f in
  match f_ty f with
  | TMap kk vk =>
      let fe := ESel (EVar "m") (MSlot (f_slot f)) in
      (MIf (EGt (ELen fe) (EInt 0)) (mblock [MKeys fe (mblock (
         [MDo (SDef "v" (EIdx fe (EVar "k"))); MDo (SDef "baseI" (EVar "i"))]
         ++ g_value vk (EVar "v") ++ g_key 2 (ProtoWireType vk)
         ++ g_value kk (EVar "k") ++ g_key 1 (ProtoWireType kk)
         ++ [g_varint (ESub (EVar "baseI") (EVar "i"))] ++ g_key num 2))]) MSkip, c)
  | TField lbl k =>
      match lbl with
      | LOneof =>
          let fe := ESel (EVar "m") (MIn num) in
          if has_message k then
            (MIf (ENe fe ENil) (mblock (g_tagged num k fe))
               (match k with
                | KMessage _ => mblock (MVarint (EInt 0) :: g_key num (ProtoWireType k))
                | _ => MSkip
                end), c)
          else (mblock (g_tagged num k fe), c)
      | LRepeated packed =>
          let fe := ESel (EVar "m") (MSlot (f_slot f)) in
          let r := if packed then g_packed c num k fe
                   else let i := g_item c num k (EIdx fe (EVar "iNdEx")) in
                        ([MDown fe (mblock (fst i))], snd i) in
          (MIf (EGt (ELen fe) (EInt 0)) (mblock (fst r)) MSkip, snd r)
      | LOptional =>
          let fe := ESel (EVar "m") (MSlot (f_slot f)) in
          (MIf (ENe fe ENil) (mblock (g_tagged num k (if is_pointer k then EStar fe else fe))) MSkip, c)
      | LRequired =>
          let fe := ESel (EVar "m") (MSlot (f_slot f)) in
          (MIf (EEq fe ENil) (mblock [MReturn (EInt 0) (ERequiredErr num)])
             (mblock (g_tagged num k (if is_pointer k then EStar fe else fe))), c)
      | LImplicit =>
          let fe := ESel (EVar "m") (MSlot (f_slot f)) in
          if has_message k then (MIf (ENe fe ENil) (mblock (g_tagged num k fe)) MSkip, c)
          else (MIf (g_set k fe) (mblock (g_tagged num k fe)) MSkip, c)
      end
  end.

(** marshalto.go:613-622 marshalForwardOneOf. *)
Definition g_forward (e : expr) : list mstmt :=
  [MCall "size" e meth_sized "i"; g_check; MSub (EVar "size")].

(** marshalto.go:657-660: the cases of the type switch. *)
Fixpoint g_cases (l : list fdesc) : mstmt :=
  match l with
  | [] => MSkip
  | f :: l' => MCase (f_num f) (mblock (g_forward (ECastIn (f_num f) (EVar "c")))) (g_cases l')
  end.

(** marshalto.go:655-668: one oneof. *)
Definition g_oneof (m : nat) (md : mdesc) (s : nat) : mstmt :=
  let fe := ESel (EVar "m") (MSlot s) in
  if is_known (dp m) then
    MSwitch "c" fe (g_cases (filter (fun g => Nat.eqb (f_slot g) s && is_oneof g) (md_fields md)))
  else
    MAssert "vtmsg" false fe meth_sized (mblock (g_forward (EVar "vtmsg"))) MSkip.

(** marshalto.go:631-638: one member of a oneof, with the option strict. *)
Definition g_member (m : nat) (f : fdesc) : mstmt :=
  let fe := ESel (EVar "m") (MSlot (f_slot f)) in
  if is_known (dp m) then
    MIs "m" fe (f_num f)
      (mblock (MDo (SDef "msg" (EPar (ECastIn (f_num f) (EVar "m")))) :: g_forward (EVar "msg")))
  else MIs "msg" fe (f_num f) (mblock (g_forward (EVar "msg"))).

(** marshalto.go:624-640 (strict) and 672-678: the fields, and the counter. *)
Fixpoint g_fields (m : nat) (c : Z) (l : list fdesc) : list mstmt * Z :=
  match l with
  | [] => ([], c)
  | f :: l' =>
      if is_oneof f then
        let r := g_fields m c l' in
        if strict then (g_member m f :: fst r, snd r) else r
      else
        let s := g_field c f in
        let r := g_fields m (snd s) l' in
        (fst s :: fst r, snd r)
  end.

(** marshalto.go:602-607 *)
Definition g_unknown (md : mdesc) : list mstmt :=
  if md_keep md then
    [MIf (ENe (ESel (EVar "m") MUnknown) ENil)
       (mblock [MSub (ELen (ESel (EVar "m") MUnknown)); MCopy (ESel (EVar "m") MUnknown)]) MSkip]
  else [].

(** [return len(dAtA) - i, nil] *)
Definition g_end : mstmt := MReturn (ESub (ELen (EVar "dAtA")) (EVar "i")) ENil.

(** marshalto.go:593-682: MarshalToSizedBufferVT, and the counter. *)
Definition g_sized (m : nat) (md : mdesc) : mstmt * Z :=
  let fs := rev (sort_fields (md_fields md)) in
  let r := g_fields m 0 fs in
  (mblock ([MIf (EEq (EVar "m") ENil) (mblock [MReturn (EInt 0) ENil]) MSkip;
            MDo (SDef "i" (ELen (EVar "dAtA"))); MDo (SBlank "i"); MDo (SVar "l"); MDo (SBlank "l")]
           ++ g_unknown md
           ++ (if strict then [] else map (g_oneof m md) (oneof_slots [] fs))
           ++ fst r ++ [g_end]), snd r).

(** marshalto.go:696-700: MarshalToSizedBufferVT of a wrapper, and the counter. *)
Definition g_wrapper (c : Z) (f : fdesc) : mstmt * Z :=
  let r := g_field c f in
  (mblock [MDo (SDef "i" (ELen (EVar "dAtA"))); fst r; g_end], snd r).

(** marshalto.go:588-591, 691-694: MarshalToVT. *)
Definition g_to : mstmt :=
  mblock [MDo (SDef "size" (EMeth (EVar "m") "SizeVT")); MTail (EVar "m") meth_sized].

(** marshalto.go:575-586: MarshalVT. *)
Definition g_marshal : mstmt :=
  mblock [MIf (EEq (EVar "m") ENil) (mblock [MReturn ENil ENil]) MSkip;
          MDo (SDef "size" (EMeth (EVar "m") "SizeVT")); MMake;
          MCall "n" (EVar "m") meth_sized "size";
          MIf (ENe (EVar "err") ENil) (mblock [MReturn ENil (EVar "err")]) MSkip;
          MReturn (EPrefix "n") ENil].

(** The wrappers' methods, in the order of the fields. *)
Fixpoint g_wrappers (nm : names) (c : Z) (l : list fdesc) : string :=
  match l with
  | [] => ""
  | f :: l' =>
      if is_oneof f then
        let w := g_wrapper c f in
        ("func(m*" ++ n_castin nm (f_num f) ++ ")" ++ meth_to ++ "(dAtA[]byte)(int,error){" ++ print_mstmt nm g_to ++ "}"
         ++ "func(m*" ++ n_castin nm (f_num f) ++ ")" ++ meth_sized ++ "(dAtA[]byte)(int,error){" ++ print_mstmt nm (fst w) ++ "}"
         ++ g_wrappers nm (snd w) l')%string
      else g_wrappers nm c l'
  end.

(** marshalto.go:560-701 message: the methods printed for a message, in order. *)
Definition gen_marshal (nm : names) (tname : string) (m : nat) (md : mdesc) : string :=
  let b := g_sized m md in
  ("func(m*" ++ tname ++ ")" ++ meth_marshal ++ "()(dAtA[]byte,errerror){" ++ print_mstmt nm g_marshal ++ "}"
   ++ "func(m*" ++ tname ++ ")" ++ meth_to ++ "(dAtA[]byte)(int,error){" ++ print_mstmt nm g_to ++ "}"
   ++ "func(m*" ++ tname ++ ")" ++ meth_sized ++ "(dAtA[]byte)(int,error){" ++ print_mstmt nm (fst b) ++ "}"
   ++ g_wrappers nm (snd b) (sort_fields (md_fields md)))%string.

(** The counter with which the wrapper of field [num] is printed. *)
Fixpoint counter_at (c : Z) (num : Z) (l : list fdesc) : Z :=
  match l with
  | [] => c
  | f :: l' =>
      if is_oneof f then
        if f_num f =? num then c else counter_at (snd (g_wrapper c f)) num l'
      else counter_at c num l'
  end.

(** Running the printed MarshalToSizedBufferVT methods; [n] bounds the depth of calls,
    [rounds] the rounds of a varint loop. *)
Fixpoint run_sized (sc : schema) (size : gval -> string -> option gval) (rounds n : nat) (g : gval) (buf : list Z)
  : res unit (list Z * Z) :=
  match n with
  | O => NoFuel
  | S n' =>
      match g with
      | GV (TMsg m) _ =>
          if md_foreign (md_of sc m) then Panic
          else mmethod sc size (run_sized sc size rounds n') meth_sized rounds
                 (fst (g_sized m (md_of sc m))) (zlen buf) g buf
      | GV (TWrap m num) _ =>
          match find_field num (md_fields (md_of sc m)) with
          | Some f =>
              let md := md_of sc m in
              let c := counter_at (snd (g_sized m md)) num (sort_fields (md_fields md)) in
              mmethod sc size (run_sized sc size rounds n') meth_sized rounds
                (fst (g_wrapper c f)) (zlen buf) g buf
          | None => Panic
          end
      | _ => Panic
      end
  end.

(** Running the printed MarshalVT: SizeVT is the printed SizeVT. *)
Definition run_MarshalVT (sc : schema) (rounds n : nat) (g : gval) : res unit (option (list Z)) :=
  let size := run_SizeVT dp sc n in
  mmethod_bytes sc size (run_sized sc size rounds n) meth_sized rounds g_marshal g.

(** Running the printed MarshalToVT: [len] is the length of the slice, [arr] the array up to
    its capacity. *)
Definition run_MarshalToVT (sc : schema) (rounds n : nat) (g : gval) (len : Z) (arr : list Z)
  : res unit (list Z * Z) :=
  let size := run_SizeVT dp sc n in
  mmethod sc size (run_sized sc size rounds n) meth_sized rounds g_to len g arr.
End Gen.
