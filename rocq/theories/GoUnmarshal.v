(** Syntax of the Go code /repo/features/unmarshal/unmarshal.go prints for UnmarshalVT and
    UnmarshalVTUnsafe, its text, and what it does when run.  As GoSyntax.v and GoMarshal.v, this
    models the target of the [p.P(...)] calls; each constructor names a place that prints it. *)
From Coq Require Import ZArith List Bool String Ascii.
From Verif Require Import Base Schema Value Helpers Unmarshal GoSyntax GoSem GenSize.
Import ListNotations.
Open Scope string_scope.
Open Scope Z_scope.

(** Go types of variables and conversions.  [YOf num k]: the type of an element of field [num],
    of kind [k] (FieldGoType, generatedfile.go:67-108, without star or slice). *)
Inductive uty : Type := YInt | YU64 | YU32 | YStr | YOf (num : Z) (k : kind).

(** Expressions.  [y] is the Go type of the operands; it is not printed. *)
Inductive uexp : Type :=
| XVar (x : string)
| XLit (s : string) (z : Z)           (* 64, 0x7F *)
| XConv (y : uty) (e : uexp)          (* T(e), unmarshal.go:93 *)
| XPar (e : uexp)                     (* (e), 101 *)
| XAdd (a b : uexp)                   (* a+b on ints, 101 *)
| XSub (a b : uexp)                   (* a-b on ints, 594 *)
| XDiv (a b : uexp)                   (* a/b on ints, 745 *)
| XAnd (a b : uexp)                   (* a&b, 93 *)
| XXor (a b : uexp)                   (* a^b, 687 *)
| XShl (y : uty) (a b : uexp)         (* a<<b, 93 *)
| XShr (a b : uexp)                   (* a>>b, 687 *)
| XLt (a b : uexp) | XGt (a b : uexp) | XGe (a b : uexp) | XLe (a b : uexp)
| XEq (a b : uexp) | XNe (a b : uexp)
| XBoth (a b : uexp) | XEither (a b : uexp)   (* a&&b, a||b *)
| XNil (e : uexp)                     (* e == nil, 513 *)
| XErr                                (* err != nil, 474 *)
| XByte (e : uexp)                    (* dAtA[e], 91 *)
| XAll                                (* len(dAtA), 814 *)
| XData (a b : uexp)                  (* dAtA[a:b], 436 *)
| XLittle (n : nat)                   (* binary.LittleEndian.Uint32(dAtA[iNdEx:]), 104 *)
| XBits (n : nat) (e : uexp)          (* math.Float64frombits(e), 164 *)
| XStr (e : uexp)                     (* string(e), 436 *)
| XUnsafe (e : uexp)                  (* unsafe.String(&dAtA[iNdEx], e), 442 *)
| XUnique (e : uexp)                  (* unique.Make[string](unsafe.String(...)).Value(), 448 *)
| XMake (e : uexp)                    (* make([]byte, e), 594 *)
| XBytes                              (* []byte{}, 611 *)
| XEmpty                              (* "", 201 *)
| XField (s : nat)                    (* m.F *)
| XLen (s : nat)                      (* len(m.F), 551 *)
| XCap (s : nat)                      (* cap(m.F), 551 *)
| XLast (s : nat)                     (* m.F[len(m.F)-1], 555 *)
| XAddr (x : string)                  (* &v, 307 *)
| XNew (num : Z) (m : nat)            (* &T{}, 503 *)
| XPool (num : Z) (m : nat)           (* TFromVTPool(), 501 *)
| XWrap (num : Z) (e : uexp)          (* &T_F{F: e}, 297 *)
| XAppend (s : nat) (e : uexp)        (* append(m.F, e), 300 *)
| XRefill (s : nat) (a b : uexp)      (* append(m.F[:0], dAtA[a:b]...), 609 *)
| XMap (num : Z) (kk vk : kind)       (* make(map[K]V), 514 *)
| XSlice (num : Z) (k : kind).        (* make([]T, 0, elementCount), 767 *)

(** What is assigned to. *)
Inductive lval : Type := LVar (x : string) | LSlot (s : nat) | LLast (s : nat).

(** What a message is decoded into: a variable, m.F, the last element of m.F, or the member of
    the wrapper [oneof] of field [num] (unmarshal.go:498). *)
Inductive place : Type := PVar (x : string) | PSlot (s : nat) | PLast (s : nat) | PIn (s : nat) (num : Z).

(** What is returned. *)
Inductive uerr : Type :=
| RNil | RErr
| RHelper (h : string) (e : err)      (* protohelpers.ErrIntOverflow, 85 *)
| REOF                                (* io.ErrUnexpectedEOF, 88 *)
| RWrong (f : member)                 (* fmt.Errorf("proto: wrong wireType = %d for field F", wireType), 775 *)
| REndGroup                           (* 823 *)
| RIllegal                            (* 826 *)
| RRequired (num : Z).                (* 883 *)

(** Statements.  [UCase]s and [UDefault] occur only inside [USwitch]. *)
Inductive ustmt : Type :=
| USkip
| USeq (a b : ustmt)
| UVar (x : string) (y : uty)                   (* var v uint64, 293 *)
| UPtrVar (x : string) (num : Z) (k : kind)     (* var mapvalue *T, 521 *)
| UDef (x : string) (e : uexp)                  (* x := e *)
| USet (l : lval) (e : uexp)                    (* l = e *)
| UOr (l : lval) (e : uexp)                     (* l |= e, 93 *)
| UInc (x : string)                             (* x++, 92 *)
| UAdd (x : string) (e : uexp)                  (* x += e, 105 *)
| UIf (c : uexp) (a b : ustmt)
| UWhile (c : uexp) (a : ustmt)                 (* for c { a }, 816 *)
| UEver (a : ustmt)                             (* for { a }, 464 *)
| UShift (a : ustmt)                            (* for shift := uint(0); ; shift += 7 { a }, 83 *)
| UBreak
| URet (e : uerr)
| UHelperSkip                                   (* skippy, err := protohelpers.Skip(dAtA[iNdEx:]), 473 *)
| UDecode (d : dispatch) (p : place) (m : nat) (a b : uexp)   (* decodeMessage, 56-81 *)
| UOneof (s : nat) (num : Z) (a b : ustmt)      (* if oneof, ok := m.F.( *T_F); ok { a } else { b }, 498 *)
| UGrow (s : nat)                               (* m.F = m.F[:len(m.F)+1], 554 *)
| UCopy (l : lval) (a b : uexp)                 (* copy(l, dAtA[a:b]), 595 *)
| UPut (s : nat)                                (* m.F[mapkey] = mapvalue, 548 *)
| UHas (n : nat)                                (* var hasFields [n]uint64, 812 *)
| UMark (i : nat) (mask : Z)                    (* hasFields[i] |= uint64(mask), 793 *)
| UMissing (i : nat) (mask : Z) (a : ustmt)     (* if hasFields[i]&uint64(mask) == 0 { a }, 882 *)
| UCount (a : ustmt)                            (* for _, integer := range dAtA[iNdEx:postIndex] { a }, 750 *)
| UExt                                          (* err = proto.UnmarshalOptions{...}.Unmarshal(..., m), 852 *)
| UKeep                                         (* m.unknownFields = append(m.unknownFields, ...), 860 *)
| USwitch (a : ustmt)                           (* switch fieldNum { a }, 828 *)
| UCase (num : Z) (a rest : ustmt)
| UDefault (a : ustmt).

(** The statements printed one after the other. *)
Fixpoint ublock (l : list ustmt) : ustmt :=
  match l with
  | [] => USkip
  | s :: l' => USeq s (ublock l')
  end.

(** * Text *)
(** [fmt.Sprintf("0x%08x", mask)] (unmarshal.go:793). *)
Fixpoint hex_digits (fuel : nat) (z : Z) : string :=
  match fuel with
  | O => ""
  | S n => (if (n <? 8)%nat || (0 <? Z.shiftr z (4 * Z.of_nat n)) then hex_digit (Z.land (Z.shiftr z (4 * Z.of_nat n)) 15) else "")
           ++ hex_digits n z
  end.
Definition hex8 (z : Z) : string := "0x" ++ hex_digits 16 z.

Section Print.
Variable nm : names.
(** The enum or message type of a field or of the values of a map, as QualifiedGoIdent prints it. *)
Variable tname : Z -> string.
(** The name of the message. *)
Variable self : string.
(** The method: UnmarshalVT or UnmarshalVTUnsafe. *)
Variable meth : string.

Definition print_kind (num : Z) (k : kind) : string :=
  match k with
  | KDouble => "float64" | KFloat => "float32"
  | KInt64 | KSint64 | KSfixed64 => "int64"
  | KUint64 | KFixed64 => "uint64"
  | KInt32 | KSint32 | KSfixed32 => "int32"
  | KUint32 | KFixed32 => "uint32"
  | KBool => "bool" | KString => "string" | KBytes => "[]byte"
  | KEnum | KMessage _ | KGroup _ => tname num
  end.
Definition print_ty (y : uty) : string :=
  match y with
  | YInt => "int" | YU64 => "uint64" | YU32 => "uint32" | YStr => "string"
  | YOf num k => print_kind num k
  end.
(** FieldGoType of an element: messages are pointers. *)
Definition print_full (num : Z) (k : kind) : string :=
  match k with KMessage _ | KGroup _ => "*" ++ tname num | _ => print_kind num k end.

Definition sel (s : nat) : string := "m." ++ n_slot nm s.

Fixpoint print_uexp (e : uexp) : string :=
  match e with
  | XVar x => x
  | XLit s _ => s
  | XConv y e => print_ty y ++ "(" ++ print_uexp e ++ ")"
  | XPar e => "(" ++ print_uexp e ++ ")"
  | XAdd a b => print_uexp a ++ "+" ++ print_uexp b
  | XSub a b => print_uexp a ++ "-" ++ print_uexp b
  | XDiv a b => print_uexp a ++ "/" ++ print_uexp b
  | XAnd a b => print_uexp a ++ "&" ++ print_uexp b
  | XXor a b => print_uexp a ++ "^" ++ print_uexp b
  | XShl _ a b => print_uexp a ++ "<<" ++ print_uexp b
  | XShr a b => print_uexp a ++ ">>" ++ print_uexp b
  | XLt a b => print_uexp a ++ "<" ++ print_uexp b
  | XGt a b => print_uexp a ++ ">" ++ print_uexp b
  | XGe a b => print_uexp a ++ ">=" ++ print_uexp b
  | XLe a b => print_uexp a ++ "<=" ++ print_uexp b
  | XEq a b => print_uexp a ++ "==" ++ print_uexp b
  | XNe a b => print_uexp a ++ "!=" ++ print_uexp b
  | XBoth a b => print_uexp a ++ "&&" ++ print_uexp b
  | XEither a b => print_uexp a ++ "||" ++ print_uexp b
  | XNil e => print_uexp e ++ "==nil"
  | XErr => "err!=nil"
  | XByte e => "dAtA[" ++ print_uexp e ++ "]"
  | XAll => "len(dAtA)"
  | XData a b => "dAtA[" ++ print_uexp a ++ ":" ++ print_uexp b ++ "]"
  | XLittle n => "binary.LittleEndian.Uint" ++ itoa (8 * Z.of_nat n) ++ "(dAtA[iNdEx:])"
  | XBits n e => "math.Float" ++ itoa (8 * Z.of_nat n) ++ "frombits(" ++ print_uexp e ++ ")"
  | XStr e => "string(" ++ print_uexp e ++ ")"
  | XUnsafe e => "unsafe.String(&dAtA[iNdEx]," ++ print_uexp e ++ ")"
  | XUnique e => "unique.Make[string](unsafe.String(&dAtA[iNdEx]," ++ print_uexp e ++ ")).Value()"
  | XMake e => "make([]byte," ++ print_uexp e ++ ")"
  | XBytes => "[]byte{}"
  | XEmpty => String (ascii_of_nat 34) (String (ascii_of_nat 34) "")
  | XField s => sel s
  | XLen s => "len(" ++ sel s ++ ")"
  | XCap s => "cap(" ++ sel s ++ ")"
  | XLast s => sel s ++ "[len(" ++ sel s ++ ")-1]"
  | XAddr x => "&" ++ x
  | XNew num _ => "&" ++ tname num ++ "{}"
  | XPool num _ => tname num ++ "FromVTPool()"
  | XWrap num e => "&" ++ n_wrap nm num ++ "{" ++ n_in nm num ++ ":" ++ print_uexp e ++ "}"
  | XAppend s e => "append(" ++ sel s ++ "," ++ print_uexp e ++ ")"
  | XRefill s a b => "append(" ++ sel s ++ "[:0],dAtA[" ++ print_uexp a ++ ":" ++ print_uexp b ++ "]...)"
  | XMap num kk vk => "make(map[" ++ print_full num kk ++ "]" ++ print_full num vk ++ ")"
  | XSlice num k => "make([]" ++ print_full num k ++ ",0,elementCount)"
  end.

Definition print_lval (l : lval) : string :=
  match l with
  | LVar x => x
  | LSlot s => sel s
  | LLast s => sel s ++ "[len(" ++ sel s ++ ")-1]"
  end.
Definition print_place (p : place) : string :=
  match p with
  | PVar x => x
  | PSlot s => sel s
  | PLast s => sel s ++ "[len(" ++ sel s ++ ")-1]"
  | PIn _ num => "oneof." ++ n_in nm num
  end.
Definition quote : string := String (ascii_of_nat 34) "".
Definition errorf (s : string) : string := "fmt.Errorf(" ++ quote ++ s ++ ")".
Definition print_uerr (e : uerr) : string :=
  match e with
  | RNil => "nil"
  | RErr => "err"
  | RHelper h _ => "protohelpers." ++ h
  | REOF => "io.ErrUnexpectedEOF"
  | RWrong f => errorf ("proto:wrongwireType=%dforfield"
                        ++ match f with MSlot s => n_slot nm s | MIn n => n_in nm n | MUnknown => "" end ++ quote ++ ",wireType")
  | REndGroup => errorf ("proto:" ++ self ++ ":wiretypeendgroupfornon-group" ++ quote)
  | RIllegal => errorf ("proto:" ++ self ++ ":illegaltag%d(wiretype%d)" ++ quote ++ ",fieldNum,wire")
  | RRequired num => errorf ("proto:requiredfield" ++ n_proto nm num ++ "notset" ++ quote)
  end.

Fixpoint print_ustmt (s : ustmt) : string :=
  match s with
  | USkip => ""
  | USeq a b => print_ustmt a ++ print_ustmt b
  | UVar x y => "var" ++ x ++ print_ty y
  | UPtrVar x num k => "var" ++ x ++ print_full num k
  | UDef x e => x ++ ":=" ++ print_uexp e
  | USet l e => print_lval l ++ "=" ++ print_uexp e
  | UOr l e => print_lval l ++ "|=" ++ print_uexp e
  | UInc x => x ++ "++"
  | UAdd x e => x ++ "+=" ++ print_uexp e
  | UIf c a b =>
      "if" ++ print_uexp c ++ "{" ++ print_ustmt a ++ "}"
      ++ match b with
         | USkip => ""
         | UIf _ _ _ => "else" ++ print_ustmt b
         | _ => "else{" ++ print_ustmt b ++ "}"
         end
  | UWhile c a => "for" ++ print_uexp c ++ "{" ++ print_ustmt a ++ "}"
  | UEver a => "for{" ++ print_ustmt a ++ "}"
  | UShift a => "forshift:=uint(0);;shift+=7{" ++ print_ustmt a ++ "}"
  | UBreak => "break"
  | URet e => "return" ++ print_uerr e
  | UHelperSkip => "skippy,err:=protohelpers.Skip(dAtA[iNdEx:])"
  | UDecode d p m a b =>
      let buf := "dAtA[" ++ print_uexp a ++ ":" ++ print_uexp b ++ "]" in
      let try c := "iferr:=" ++ c ++ ";err!=nil{returnerr}" in
      match d with
      | DKnown => try ("(*" ++ n_cast nm m ++ ")(" ++ print_place p ++ ")." ++ meth ++ "(" ++ buf ++ ")")
      | DLocal => try (print_place p ++ "." ++ meth ++ "(" ++ buf ++ ")")
      | DOther =>
          "ifunmarshal,ok:=interface{}(" ++ print_place p ++ ").(interface{" ++ meth ++ "([]byte)error});ok{"
          ++ try ("unmarshal." ++ meth ++ "(" ++ buf ++ ")") ++ "}else{"
          ++ try ("proto.Unmarshal(" ++ buf ++ "," ++ print_place p ++ ")") ++ "}"
      end
  | UOneof s num a b =>
      "ifoneof,ok:=" ++ sel s ++ ".(*" ++ n_wrap nm num ++ ");ok{" ++ print_ustmt a ++ "}else{" ++ print_ustmt b ++ "}"
  | UGrow s => sel s ++ "=" ++ sel s ++ "[:len(" ++ sel s ++ ")+1]"
  | UCopy l a b => "copy(" ++ print_lval l ++ ",dAtA[" ++ print_uexp a ++ ":" ++ print_uexp b ++ "])"
  | UPut s => sel s ++ "[mapkey]=mapvalue"
  | UHas n => "varhasFields[" ++ itoa (Z.of_nat n) ++ "]uint64"
  | UMark i mask => "hasFields[" ++ itoa (Z.of_nat i) ++ "]|=uint64(" ++ hex8 mask ++ ")"
  | UMissing i mask a => "ifhasFields[" ++ itoa (Z.of_nat i) ++ "]&uint64(" ++ hex8 mask ++ ")==0{" ++ print_ustmt a ++ "}"
  | UCount a => "for_,integer:=rangedAtA[iNdEx:postIndex]{" ++ print_ustmt a ++ "}"
  | UExt => "err=proto.UnmarshalOptions{AllowPartial:true}.Unmarshal(dAtA[iNdEx:iNdEx+skippy],m)"
  | UKeep => "m.unknownFields=append(m.unknownFields,dAtA[iNdEx:iNdEx+skippy]...)"
  | USwitch a => "switchfieldNum{" ++ print_ustmt a ++ "}"
  | UCase num a rest => "case" ++ itoa num ++ ":" ++ print_ustmt a ++ print_ustmt rest
  | UDefault a => "default:" ++ print_ustmt a
  end.
End Print.

(** * Meaning *)

(** Values of variables: Go values, an error, the array hasFields. *)
Inductive uval : Type := UV (v : val) | UE (e : option err) | UH (l : list Z).
(** Variables in scope, innermost first. *)
Definition uenvt : Type := list (string * uval).
Fixpoint ulook (E : uenvt) (x : string) : option uval :=
  match E with
  | [] => None
  | (y, u) :: E' => if String.eqb x y then Some u else ulook E' x
  end.
Fixpoint uassign (E : uenvt) (x : string) (u : uval) : option uenvt :=
  match E with
  | [] => None
  | (y, w) :: E' =>
      if String.eqb x y then Some ((y, u) :: E')
      else match uassign E' x u with Some E2 => Some ((y, w) :: E2) | None => None end
  end.

(** Outcomes: the next statement, [break], a return with the message as it is then, a run-time
    panic (or a program the compiler rejects), not enough rounds. *)
Inductive uout : Type :=
| UNext (E : uenvt) (v : val)
| UBrk (E : uenvt) (v : val)
| URetn (e : option err) (v : val)
| UStuck
| UFuel.

(** Conversion to a Go type; floats are represented by their bits, so that math.FloatXXfrombits
    and a conversion of a float to its own type change nothing. *)
Definition conv (y : uty) : Z -> Z :=
  match y with
  | YInt => s64 | YU64 => u64 | YU32 => u32 | YStr => fun z => z
  | YOf _ k =>
      match k with
      | KInt64 | KSint64 | KSfixed64 => s64
      | KInt32 | KSint32 | KSfixed32 | KEnum => s32
      | KUint64 | KFixed64 => u64
      | KUint32 | KFixed32 => u32
      | _ => fun z => z
      end
  end.
(** Zero value. *)
Definition zero_ty (y : uty) : val :=
  match y with YStr => VStr [] | YOf _ k => map_zero k | _ => VInt 0 end.

Definition zb (b : bool) : val := VInt (if b then 1 else 0).
Definition arith (f : Z -> Z -> Z) (a b : option val) : option val :=
  match a, b with Some (VInt x), Some (VInt y) => Some (VInt (f x y)) | _, _ => None end.
Definition rel (f : Z -> Z -> bool) (a b : option val) : option val :=
  match a, b with Some (VInt x), Some (VInt y) => Some (zb (f x y)) | _, _ => None end.
Definition truth (o : option val) : option bool :=
  match o with Some (VInt z) => Some (negb (z =? 0)) | _ => None end.
Definition number (o : option val) : option Z :=
  match o with Some (VInt z) => Some z | _ => None end.

(** The last element of a list. *)
Definition last_of (v : val) : option val :=
  match v with
  | VList l => match rev l with x :: _ => Some x | [] => None end
  | _ => None
  end.
Definition set_last (v : val) (x : val) : option val :=
  match v with
  | VList l => match rev l with _ :: r => Some (VList (rev r ++ [x])) | [] => None end
  | _ => None
  end.

Section Run.
Variable sc : schema.
(** The message the method is printed for. *)
Variable self : nat.
(** The argument; [base] is its position in the buffer of the outermost call. *)
Variable data : list Z.
Variable base : Z.
(** What FromVTPool returns when called with iNdEx at the given value. *)
Variable alloc : Z -> nat -> val.
(** Capacity beyond the length, and beyond the elements [VMsg] lists as left behind there. *)
Variable spare : Z -> nat -> Z.
(** The method of another message: iNdEx at the start of its argument, message, argument, receiver. *)
Variable callee : Z -> nat -> list Z -> val -> res val val.
(** Bound on the iterations of a loop. *)
Variable rounds : nat.

Definition var (E : uenvt) (x : string) : option val :=
  match ulook E x with Some (UV v) => Some v | _ => None end.
Definition index (E : uenvt) : option Z := number (var E "iNdEx").
Definition hidden (v : val) (s : nat) : list val := match v with VMsg _ _ h => nth s h [] | _ => [] end.

(** [append(m.F, e)] reuses spare capacity, which is not seen: pooled code appends to lists of
    messages only if there is none (unmarshal.go:551). *)
Fixpoint ev (E : uenvt) (v : val) (e : uexp) : option val :=
  match e with
  | XVar x => var E x
  | XLit _ z => Some (VInt z)
  | XConv y a => match ev E v a with Some (VInt z) => Some (VInt (conv y z)) | _ => None end
  | XPar a => ev E v a
  | XAdd a b => arith (fun x y => s64 (x + y)) (ev E v a) (ev E v b)
  | XSub a b => arith (fun x y => s64 (x - y)) (ev E v a) (ev E v b)
  | XDiv a b => match ev E v b with Some (VInt 0) => None | o => arith Z.quot (ev E v a) o end
  | XAnd a b => arith Z.land (ev E v a) (ev E v b)
  | XXor a b => arith Z.lxor (ev E v a) (ev E v b)
  | XShl y a b => arith (fun x n => conv y (Z.shiftl x n)) (ev E v a) (ev E v b)
  | XShr a b => arith Z.shiftr (ev E v a) (ev E v b)
  | XLt a b => rel Z.ltb (ev E v a) (ev E v b)
  | XGt a b => rel Z.gtb (ev E v a) (ev E v b)
  | XGe a b => rel Z.geb (ev E v a) (ev E v b)
  | XLe a b => rel Z.leb (ev E v a) (ev E v b)
  | XEq a b => rel Z.eqb (ev E v a) (ev E v b)
  | XNe a b => rel (fun x y => negb (x =? y)) (ev E v a) (ev E v b)
  | XBoth a b =>
      match truth (ev E v a) with
      | Some true => ev E v b
      | Some false => Some (zb false)
      | None => None
      end
  | XEither a b =>
      match truth (ev E v a) with
      | Some true => Some (zb true)
      | Some false => ev E v b
      | None => None
      end
  | XNil a => match ev E v a with Some x => Some (zb (is_nil x)) | None => None end
  | XErr => match ulook E "err" with Some (UE (Some _)) => Some (zb true) | Some (UE None) => Some (zb false) | _ => None end
  | XByte a =>
      match ev E v a with
      | Some (VInt i) => match zget data i with Some b => Some (VInt b) | None => None end
      | _ => None
      end
  | XAll => Some (VInt (zlen data))
  | XData a b =>
      match ev E v a, ev E v b with
      | Some (VInt i), Some (VInt j) =>
          match zslice data i j with Some bs => Some (VRefB (base + i) bs) | None => None end
      | _, _ => None
      end
  | XLittle n =>
      match index E with
      | Some i => match zslice data i (i + Z.of_nat n) with Some bs => Some (VInt (le_get bs)) | None => None end
      | None => None
      end
  | XBits _ a => ev E v a
  | XStr a => match ev E v a with Some (VRefB _ bs) => Some (VStr bs) | _ => None end
  | XUnsafe a =>
      match index E, ev E v a with
      | Some i, Some (VInt n) =>
          match zget data i, zslice data i (i + n) with
          | Some _, Some bs => Some (VRefS (base + i) bs)
          | _, _ => None
          end
      | _, _ => None
      end
  | XUnique a =>
      match index E, ev E v a with
      | Some i, Some (VInt n) =>
          match zget data i, zslice data i (i + n) with
          | Some _, Some bs => Some (VStr bs)
          | _, _ => None
          end
      | _, _ => None
      end
  | XMake a =>
      match ev E v a with
      | Some (VInt n) => if n <? 0 then None else Some (VBytes (repeat 0 (Z.to_nat n)))
      | _ => None
      end
  | XBytes => Some (VBytes [])
  | XEmpty => Some (VStr [])
  | XField s => get_slot v s
  | XLen s => match get_slot v s with Some x => Some (VInt (zlen (vlist x))) | None => None end
  | XCap s =>
      match get_slot v s, index E with
      | Some x, Some i => Some (VInt (zlen (vlist x) + zlen (hidden v s) + Z.max 0 (spare i s)))
      | _, _ => None
      end
  | XLast s => match get_slot v s with Some x => last_of x | None => None end
  | XAddr x => match var E x with Some y => Some (VPtr y) | None => None end
  | XNew _ m => Some (new_msg (md_of sc m))
  | XPool _ m => match index E with Some i => Some (alloc i m) | None => None end
  | XWrap n a => match ev E v a with Some x => Some (VOneof n x) | None => None end
  | XAppend s a =>
      match get_slot v s, ev E v a with
      | Some l, Some x => Some (VList (vlist l ++ [x]))
      | _, _ => None
      end
  | XRefill s a b =>
      match get_slot v s, ev E v a, ev E v b with
      | Some old, Some (VInt i), Some (VInt j) =>
          match zslice data i j with
          | Some [] => Some (if is_nil old then VNil else VBytes [])
          | Some bs => Some (VBytes bs)
          | None => None
          end
      | _, _, _ => None
      end
  | XMap _ _ _ => Some (VMap [])
  | XSlice _ _ =>
      match number (var E "elementCount") with
      | Some n => if n <? 0 then None else Some (VList [])
      | None => None
      end
  end.

Definition uread (E : uenvt) (v : val) (l : lval) : option val :=
  match l with
  | LVar x => var E x
  | LSlot s => get_slot v s
  | LLast s => match get_slot v s with Some x => last_of x | None => None end
  end.
Definition uwrite (E : uenvt) (v : val) (l : lval) (x : val) : option (uenvt * val) :=
  match l with
  | LVar y => match uassign E y (UV x) with Some E' => Some (E', v) | None => None end
  | LSlot s => match set_slot v s x with Some v' => Some (E, v') | None => None end
  | LLast s =>
      match get_slot v s with
      | Some l => match set_last l x with
                  | Some l' => match set_slot v s l' with Some v' => Some (E, v') | None => None end
                  | None => None
                  end
      | None => None
      end
  end.
Definition pread (E : uenvt) (v : val) (p : place) : option val :=
  match p with
  | PVar x => var E x
  | PSlot s => get_slot v s
  | PLast s => match get_slot v s with Some x => last_of x | None => None end
  | PIn s n => match get_slot v s with Some (VOneof k x) => if k =? n then Some x else None | _ => None end
  end.
Definition pwrite (E : uenvt) (v : val) (p : place) (x : val) : option (uenvt * val) :=
  match p with
  | PVar y => uwrite E v (LVar y) x
  | PSlot s => uwrite E v (LSlot s) x
  | PLast s => uwrite E v (LLast s) x
  | PIn s n => uwrite E v (LSlot s) (VOneof n x)
  end.

Definition uset (E : uenvt) (v : val) (l : lval) (o : option val) : uout :=
  match o with
  | Some x => match uwrite E v l x with Some (E', v') => UNext E' v' | None => UStuck end
  | None => UStuck
  end.

(** Variables declared in a block end with it. *)
Definition uleave (E0 : uenvt) (o : uout) : uout :=
  match o with
  | UNext E v => UNext (skipn (List.length E - List.length E0) E) v
  | UBrk E v => UBrk (skipn (List.length E - List.length E0) E) v
  | o => o
  end.

(** [for c { body }] *)
Fixpoint uloop (n : nat) (c : uenvt -> val -> option bool) (body : uenvt -> val -> uout) (E : uenvt) (v : val) : uout :=
  match n with
  | O => UFuel
  | S n' =>
      match c E v with
      | None => UStuck
      | Some false => UNext E v
      | Some true =>
          match uleave E (body E v) with
          | UNext E' v' => uloop n' c body E' v'
          | UBrk E' v' => UNext E' v'
          | o => o
          end
      end
  end.

(** [for _, integer := range bs { body }] *)
Fixpoint urange (bs : list Z) (body : uenvt -> val -> uout) (E : uenvt) (v : val) : uout :=
  match bs with
  | [] => UNext E v
  | b :: bs' =>
      match uleave E (body (("integer", UV (VInt b)) :: E) v) with
      | UNext E' v' => urange bs' body E' v'
      | UBrk E' v' => UNext E' v'
      | o => o
      end
  end.

(** The error a return statement returns. *)
Definition uret (E : uenvt) (e : uerr) : option (option err) :=
  match e with
  | RNil => Some None
  | RErr => match ulook E "err" with Some (UE o) => Some o | _ => None end
  | RHelper _ x => Some (Some x)
  | REOF => Some (Some EUnexpectedEOF)
  | RWrong _ | REndGroup => Some (Some EWireType)
  | RIllegal => Some (Some EIllegalTag)
  | RRequired _ => Some (Some ERequired)
  end.

(** decodeMessage (unmarshal.go:56-81): the type assertion of [DOther] fails for messages
    without helpers; upstream panics on a nil pointer. *)
Definition udecode (d : dispatch) (i : Z) (m : nat) (buf : list Z) (x : val) : res val val :=
  if md_foreign (md_of sc m) then
    match d, x with
    | DOther, VNil => Panic
    | DOther, _ => match up_dec (sc_up sc) m buf with Some y => Ok y | None => Err EUpstream x end
    | _, _ => Panic
    end
  else callee i m buf x.

(** [num]: the value switched on. *)
Fixpoint uexec (num : Z) (s : ustmt) (E : uenvt) (v : val) : uout :=
  match s with
  | USkip => UNext E v
  | USeq a b => match uexec num a E v with UNext E' v' => uexec num b E' v' | o => o end
  | UVar x y => UNext ((x, UV (zero_ty y)) :: E) v
  | UPtrVar x _ k => UNext ((x, UV (map_zero k)) :: E) v
  | UDef x e => match ev E v e with Some y => UNext ((x, UV y) :: E) v | None => UStuck end
  | USet l e => uset E v l (ev E v e)
  | UOr l e => uset E v l (arith Z.lor (uread E v l) (ev E v e))
  | UInc x => uset E v (LVar x) (arith (fun a b => s64 (a + b)) (var E x) (Some (VInt 1)))
  | UAdd x e => uset E v (LVar x) (arith (fun a b => s64 (a + b)) (var E x) (ev E v e))
  | UIf c a b =>
      match truth (ev E v c) with
      | Some true => uleave E (uexec num a E v)
      | Some false => uleave E (uexec num b E v)
      | None => UStuck
      end
  | UWhile c a => uloop rounds (fun E v => truth (ev E v c)) (uexec num a) E v
  | UEver a => uloop rounds (fun _ _ => Some true) (uexec num a) E v
  | UShift a =>
      uleave E (uloop rounds (fun _ _ => Some true)
        (fun E v => match uleave E (uexec num a E v) with
                    | UNext E' v' => uset E' v' (LVar "shift") (arith Z.add (var E' "shift") (Some (VInt 7)))
                    | o => o
                    end) (("shift", UV (VInt 0)) :: E) v)
  | UBreak => UBrk E v
  | URet e => match uret E e with Some o => URetn o v | None => UStuck end
  | UHelperSkip =>
      match index E with
      | Some i =>
          match zslice data i (zlen data) with
          | Some rest =>
              match Skip rest with
              | Ok n => UNext (("err", UE None) :: ("skippy", UV (VInt n)) :: E) v
              | Err e _ => UNext (("err", UE (Some e)) :: ("skippy", UV (VInt 0)) :: E) v
              | Panic => UStuck
              | NoFuel => UFuel
              end
          | None => UStuck
          end
      | None => UStuck
      end
  | UDecode d p m a b =>
      match ev E v a, ev E v b, pread E v p with
      | Some (VInt i), Some (VInt j), Some x =>
          match zslice data i j with
          | Some buf =>
              match udecode d i m buf x with
              | Ok y => match pwrite E v p y with Some (E', v') => UNext E' v' | None => UStuck end
              | Err e y => match pwrite E v p y with Some (_, v') => URetn (Some e) v' | None => UStuck end
              | Panic => UStuck
              | NoFuel => UFuel
              end
          | None => UStuck
          end
      | _, _, _ => UStuck
      end
  | UOneof s n a b =>
      match get_slot v s with
      | Some (VOneof k _) => uleave E (if k =? n then uexec num a E v else uexec num b E v)
      | Some _ => uleave E (uexec num b E v)
      | None => UStuck
      end
  | UGrow s =>
      match v with
      | VMsg sl u h =>
          match nth s h [] with
          | x :: rest => UNext E (VMsg (list_set sl s (VList (vlist (slot sl s) ++ [x]))) u (list_set h s rest))
          | [] => UNext E (VMsg (list_set sl s (VList (vlist (slot sl s) ++ [VNil]))) u h)
          end
      | _ => UStuck
      end
  | UCopy l a b =>
      match uread E v l, ev E v a, ev E v b with
      | Some (VBytes old), Some (VInt i), Some (VInt j) =>
          match zslice data i j with
          | Some bs => uset E v l (match zcopy old 0 bs with Some x => Some (VBytes x) | None => None end)
          | None => UStuck
          end
      | _, _, _ => UStuck
      end
  | UPut s =>
      match get_slot v s, var E "mapkey", var E "mapvalue" with
      | Some VNil, _, _ => UStuck
      | Some l, Some k, Some x => uset E v (LSlot s) (Some (VMap (map_set (vmap l) k x)))
      | _, _, _ => UStuck
      end
  | UHas n => UNext (("hasFields", UH (repeat 0 n)) :: E) v
  | UMark i mask =>
      match ulook E "hasFields" with
      | Some (UH l) =>
          match uassign E "hasFields" (UH (list_set l i (Z.lor (nth i l 0) (u64 mask)))) with
          | Some E' => if Nat.ltb i (List.length l) then UNext E' v else UStuck
          | None => UStuck
          end
      | _ => UStuck
      end
  | UMissing i mask a =>
      match ulook E "hasFields" with
      | Some (UH l) =>
          if Nat.ltb i (List.length l) then
            if Z.land (nth i l 0) (u64 mask) =? 0 then uleave E (uexec num a E v) else UNext E v
          else UStuck
      | _ => UStuck
      end
  | UCount a =>
      match index E, number (var E "postIndex") with
      | Some i, Some j =>
          match zslice data i j with Some bs => urange bs (uexec num a) E v | None => UStuck end
      | _, _ => UStuck
      end
  | UExt =>
      match v, index E, number (var E "skippy") with
      | VMsg _ _ _, Some i, Some n =>
          match zslice data i (s64 (i + n)) with
          | Some raw =>
              match up_ext (sc_up sc) self raw with
              | Some v' => match uassign E "err" (UE None) with Some E' => UNext E' v' | None => UStuck end
              | None => match uassign E "err" (UE (Some EUpstream)) with Some E' => UNext E' v | None => UStuck end
              end
          | None => UStuck
          end
      | _, _, _ => UStuck
      end
  | UKeep =>
      match index E, number (var E "skippy") with
      | Some i, Some n =>
          match zslice data i (s64 (i + n)) with
          | Some raw => match add_unknown v raw with Some v' => UNext E v' | None => UStuck end
          | None => UStuck
          end
      | _, _ => UStuck
      end
  | USwitch a =>
      match number (var E "fieldNum") with
      | Some z => match uleave E (uexec z a E v) with UBrk E' v' => UNext E' v' | o => o end
      | None => UStuck
      end
  | UCase n a rest => if num =? n then uexec num a E v else uexec num rest E v
  | UDefault a => uexec num a E v
  end.

(** The method. *)
Definition umethod (s : ustmt) (v : val) : res val val :=
  match uexec 0 s [] v with
  | URetn None v' => Ok v'
  | URetn (Some e) v' => Err e v'
  | UFuel => NoFuel
  | _ => Panic
  end.
End Run.
