(** The statements that occur in the code /repo/features/marshal/marshalto.go prints: their
    text and their meaning.  Besides the local variables the state has the contents of the
    buffer [dAtA]. *)
From Coq Require Import ZArith List Bool String.
From Verif Require Import Base Schema Value Helpers GoSyntax GoSem.
Import ListNotations.
Open Scope string_scope.
Open Scope Z_scope.

Inductive mstmt : Type :=
| MSkip
| MSeq (a b : mstmt)
| MDo (s : stmt)                      (* a statement that does not touch the buffer *)
| MSub (e : expr)                     (* i -= e, marshalto.go:55 *)
| MDec                                (* i--, marshalto.go:78 *)
| MPut (j : string) (e : expr)        (* dAtA[j] = e, marshalto.go:79,212 *)
| MInc (x : string)                   (* x++, marshalto.go:214 *)
| MShr (x : string)                   (* x >>= 7, marshalto.go:213 *)
| MFixed (n : nat) (e : expr)         (* binary.LittleEndian.PutUint64(dAtA[i:], e), marshalto.go:56,61 *)
| MCopy (e : expr)                    (* copy(dAtA[i:], e), marshalto.go:104 *)
| MVarint (e : expr)                  (* i = protohelpers.EncodeVarint(dAtA, i, e), marshalto.go:65 *)
| MIf (c : expr) (a b : mstmt)        (* if c { a } else { b } *)
| MDown (e : expr) (a : mstmt)        (* for iNdEx := len(e) - 1; iNdEx >= 0; iNdEx-- { a }, marshalto.go:704 *)
| MRange (v : string) (e : expr) (a : mstmt)  (* for _, v := range e { a }, marshalto.go:205 *)
| MKeys (e : expr) (a : mstmt)        (* for k := range e { a }, marshalto.go:382 *)
| MWhile (x : string) (a : mstmt)     (* for x >= 1<<7 { a }, marshalto.go:211 *)
| MCall (x : string) (e : expr) (h j : string)  (* x, err := e.h(dAtA[:j]), marshalto.go:723 *)
| MEncode (e : expr)                  (* encoded, err := proto.Marshal(e), marshalto.go:737 *)
| MAssert (x : string) (boxed : bool) (e : expr) (h : string) (a b : mstmt)
    (* if x, ok := e.(interface{ h([]byte) (int, error) }); ok { a } else { b }, with [boxed]:
       interface{}(e), marshalto.go:663, 731 *)
| MIs (x : string) (e : expr) (num : Z) (a : mstmt)
    (* if x, ok := e.( *T_F); ok { a }, marshalto.go:632,635 *)
| MSwitch (x : string) (e : expr) (a : mstmt)  (* switch x := e.(type) { a }, marshalto.go:656 *)
| MCase (num : Z) (a rest : mstmt)    (* case *T_F: a, marshalto.go:658 *)
| MMake                               (* dAtA = make([]byte, size), marshalto.go:580 *)
| MTail (e : expr) (h : string)       (* return e.h(dAtA[:size]), marshalto.go:590 *)
| MReturn (e r : expr).               (* return e, r, marshalto.go:577,680 *)

(** The statements printed one after the other. *)
Fixpoint mblock (l : list mstmt) : mstmt :=
  match l with
  | [] => MSkip
  | s :: l' => MSeq s (mblock l')
  end.

Section Print.
Variable nm : names.

(** The text of a statement, without white space. *)
Fixpoint print_mstmt (s : mstmt) : string :=
  match s with
  | MSkip => ""
  | MSeq a b => print_mstmt a ++ print_mstmt b
  | MDo s => print_stmt nm s
  | MSub e => "i-=" ++ print_expr nm e
  | MDec => "i--"
  | MPut j e => "dAtA[" ++ j ++ "]=" ++ print_expr nm e
  | MInc x => x ++ "++"
  | MShr x => x ++ ">>=7"
  | MFixed n e =>
      "binary.LittleEndian.PutUint" ++ itoa (8 * Z.of_nat n) ++ "(dAtA[i:]," ++ print_expr nm e ++ ")"
  | MCopy e => "copy(dAtA[i:]," ++ print_expr nm e ++ ")"
  | MVarint e => "i=protohelpers.EncodeVarint(dAtA,i," ++ print_expr nm e ++ ")"
  | MIf c a b =>
      "if" ++ print_expr nm c ++ "{" ++ print_mstmt a ++ "}"
      ++ match b with MSkip => "" | _ => "else{" ++ print_mstmt b ++ "}" end
  | MDown e a =>
      "foriNdEx:=len(" ++ print_expr nm e ++ ")-1;iNdEx>=0;iNdEx--{" ++ print_mstmt a ++ "}"
  | MRange v e a => "for_," ++ v ++ ":=range" ++ print_expr nm e ++ "{" ++ print_mstmt a ++ "}"
  | MKeys e a => "fork:=range" ++ print_expr nm e ++ "{" ++ print_mstmt a ++ "}"
  | MWhile x a => "for" ++ x ++ ">=1<<7{" ++ print_mstmt a ++ "}"
  | MCall x e h j => x ++ ",err:=" ++ print_expr nm e ++ "." ++ h ++ "(dAtA[:" ++ j ++ "])"
  | MEncode e => "encoded,err:=proto.Marshal(" ++ print_expr nm e ++ ")"
  | MAssert x boxed e h a b =>
      "if" ++ x ++ ",ok:="
      ++ (if boxed then "interface{}(" ++ print_expr nm e ++ ")" else print_expr nm e)
      ++ ".(interface{" ++ h ++ "([]byte)(int,error)});ok{" ++ print_mstmt a ++ "}"
      ++ match b with MSkip => "" | _ => "else{" ++ print_mstmt b ++ "}" end
  | MIs x e num a =>
      "if" ++ x ++ ",ok:=" ++ print_expr nm e ++ ".(*" ++ n_wrap nm num ++ ");ok{" ++ print_mstmt a ++ "}"
  | MSwitch x e a =>
      "switch" ++ x ++ ":=" ++ print_expr nm e ++ ".(type){" ++ print_mstmt a ++ "}"
  | MCase n a rest => "case*" ++ n_wrap nm n ++ ":" ++ print_mstmt a ++ print_mstmt rest
  | MMake => "dAtA=make([]byte,size)"
  | MTail e h => "return" ++ print_expr nm e ++ "." ++ h ++ "(dAtA[:size])"
  | MReturn e r => "return" ++ print_expr nm e ++ "," ++ print_expr nm r
  end.
End Print.

(** What a statement does: go on, return a value and an error, or fail. *)
Inductive mout : Type :=
| MNext (E : env) (buf : list Z)
| MRet (buf : list Z) (g : gval) (e : option err)
| MStuck.

(** The end of a block. *)
Definition mleave (E : env) (o : mout) : mout :=
  match o with MNext E' buf => MNext (skipn (List.length E' - List.length E) E') buf | _ => o end.

(** [for i := n-1; i >= 0; i-- { body }]; the loops of the generated code do not assign to
    the variable. *)
Fixpoint down (body : env -> list Z -> mout) (n : nat) (E : env) (buf : list Z) : mout :=
  match n with
  | O => MNext E buf
  | S n' =>
      match mleave E (body (("iNdEx", GInt (Z.of_nat n')) :: E) buf) with
      | MNext E' buf' => down body n' E' buf'
      | o => o
      end
  end.

(** A range loop that binds one variable. *)
Fixpoint each (body : env -> list Z -> mout) (x : string) (l : list gval) (E : env) (buf : list Z) : mout :=
  match l with
  | [] => MNext E buf
  | g :: l' =>
      match mleave E (body ((x, g) :: E) buf) with
      | MNext E' buf' => each body x l' E' buf'
      | o => o
      end
  end.

(** [for x >= 1<<7 { body }], at most [n] rounds. *)
Fixpoint while (n : nat) (body : env -> list Z -> mout) (x : string) (E : env) (buf : list Z) : mout :=
  match lookup x E with
  | Some g =>
      match unsigned g with
      | Some z =>
          if 128 <=? z then
            match n with
            | O => MStuck
            | S n' =>
                match mleave E (body E buf) with
                | MNext E' buf' => while n' body x E' buf'
                | o => o
                end
            end
          else MNext E buf
      | None => MStuck
      end
  | None => MStuck
  end.

(** What is copied by [copy]: the bytes of a slice or string. *)
Definition contents (g : gval) : option (list Z) :=
  match g with
  | GV (TKind KString) (VStr s | VRefS _ s) => Some s
  | GV (TKind KBytes) (VBytes s | VRefB _ s) => Some s
  | GV (TKind KBytes) VNil => Some []
  | _ => None
  end.

(** A constant or expression of type uint64. *)
Definition word (g : gval) : option Z :=
  match g with GU64 z => Some z | GInt z => Some (u64 z) | _ => None end.

(** A byte: a value of type uint8 or a constant. *)
Definition byte (g : gval) : option Z :=
  match g with GU8 z | GInt z => Some z | _ => None end.

(** [x >>= 7] *)
Definition shr7 (g : gval) : option gval := shift_right g 7.

(** The nil error and other errors. *)
Definition error_of (g : gval) : option (option err) :=
  match g with GNil => Some None | GErr e => Some e | _ => None end.

Section Sem.
Variable sc : schema.
(** SizeVT of a value. *)
Variable call : gval -> string -> option gval.
(** The MarshalToSizedBufferVT methods one call further down: they get the contents of their
    slice and return the new contents and a number.  (What is in the buffer after an error
    is not represented: every caller returns the error.) *)
Variable callee : gval -> list Z -> res unit (list Z * Z).
(** The name of the method. *)
Variable meth : string.
(** Bound on the rounds of a varint loop. *)
Variable rounds : nat.

Definition set_i (i : Z) (E : env) (buf : list Z) : mout :=
  match assign "i" (GInt (s64 i)) E with Some E' => MNext E' buf | None => MStuck end.

(** [num]: the dynamic type of the operand of the enclosing type switch. *)
Fixpoint mexec (num : Z) (s : mstmt) (E : env) (buf : list Z) : mout :=
  match s with
  | MSkip => MNext E buf
  | MSeq a b => match mexec num a E buf with MNext E' buf' => mexec num b E' buf' | o => o end
  | MDo s => match exec sc call num s E with Next E' => MNext E' buf | _ => MStuck end
  | MSub e =>
      match lookup "i" E, eval sc call E e with
      | Some (GInt i), Some (GInt z) => set_i (i - z) E buf
      | _, _ => MStuck
      end
  | MDec =>
      match lookup "i" E with Some (GInt i) => set_i (i - 1) E buf | _ => MStuck end
  | MPut j e =>
      match lookup j E, eval sc call E e with
      | Some (GInt i), Some g =>
          match byte g with
          | Some b => match zset buf i b with Some buf' => MNext E buf' | None => MStuck end
          | None => MStuck
          end
      | _, _ => MStuck
      end
  | MInc x =>
      match lookup x E with
      | Some (GInt z) =>
          match assign x (GInt (s64 (z + 1))) E with Some E' => MNext E' buf | None => MStuck end
      | _ => MStuck
      end
  | MShr x =>
      match lookup x E with
      | Some g =>
          match shr7 g with
          | Some g' => match assign x g' E with Some E' => MNext E' buf | None => MStuck end
          | None => MStuck
          end
      | None => MStuck
      end
  | MFixed n e =>
      (* PutUintXX panics when fewer than n bytes are left *)
      match lookup "i" E, eval sc call E e with
      | Some (GInt i), Some (GU64 z | GU32 z) =>
          if zlen buf <? i + Z.of_nat n then MStuck
          else match zcopy buf i (le_put n z) with Some buf' => MNext E buf' | None => MStuck end
      | _, _ => MStuck
      end
  | MCopy e =>
      match lookup "i" E, eval sc call E e with
      | Some (GInt i), Some g =>
          match contents g with
          | Some bs => match zcopy buf i bs with Some buf' => MNext E buf' | None => MStuck end
          | None => MStuck
          end
      | _, _ => MStuck
      end
  | MVarint e =>
      match lookup "i" E, eval sc call E e with
      | Some (GInt i), Some g =>
          match word g with
          | Some z =>
              match EncodeVarint buf i z with
              | Ok (buf', i') => set_i i' E buf'
              | _ => MStuck
              end
          | None => MStuck
          end
      | _, _ => MStuck
      end
  | MIf c a b =>
      match truth (eval sc call E c) with
      | Some true => mleave E (mexec num a E buf)
      | Some false => mleave E (mexec num b E buf)
      | None => MStuck
      end
  | MDown e a =>
      match eval sc call E (ELen e) with
      | Some (GInt z) => down (mexec num a) (Z.to_nat z) E buf
      | _ => MStuck
      end
  | MRange v e a =>
      match eval sc call E e with
      | Some g =>
          match items g with
          | Some l => each (mexec num a) v (map snd l) E buf
          | None => MStuck
          end
      | None => MStuck
      end
  | MKeys e a =>
      match eval sc call E e with
      | Some g =>
          match items g with
          | Some l => each (mexec num a) "k" (map fst l) E buf
          | None => MStuck
          end
      | None => MStuck
      end
  | MWhile x a => while rounds (mexec num a) x E buf
  | MCall x e h j =>
      if String.eqb h meth then
        match eval sc call E e, lookup j E with
        | Some g, Some (GInt i) =>
            match zslice buf 0 i with
            | Some pre =>
                match callee g pre with
                | Ok (pre', n) =>
                    MNext (("err", GErr None) :: (x, GInt n) :: E) (pre' ++ skipn (Z.to_nat i) buf)
                | Err e _ => MNext (("err", GErr (Some e)) :: (x, GInt 0) :: E) buf
                | _ => MStuck
                end
            | None => MStuck
            end
        | _, _ => MStuck
        end
      else MStuck
  | MEncode e =>
      match eval sc call E e with
      | Some (GV (TMsg m) v) =>
          if up_init (sc_up sc) m v then
            MNext (("err", GErr None) :: ("encoded", GV (TKind KBytes) (VBytes (up_enc (sc_up sc) m v))) :: E) buf
          else MNext (("err", GErr (Some EUpstream)) :: ("encoded", GV (TKind KBytes) VNil) :: E) buf
      | _ => MStuck
      end
  | MAssert x _ e _ a b =>
      match eval sc call E e with
      | Some g =>
          match has_helpers sc g with
          | Some true => mleave E (mexec num a (("ok", GBool true) :: (x, g) :: E) buf)
          | Some false => mleave E (mexec num b (("ok", GBool false) :: (x, GNil) :: E) buf)
          | None => MStuck
          end
      | None => MStuck
      end
  | MIs x e n a =>
      match eval sc call E e with
      | Some (GV (TWrap m n') v) =>
          if n =? n' then mleave E (mexec num a (("ok", GBool true) :: (x, GV (TWrap m n') v) :: E) buf)
          else MNext E buf
      | Some (GV TNone _) => MNext E buf
      | _ => MStuck
      end
  | MSwitch x e a =>
      match eval sc call E e with
      | Some (GV (TWrap m n) v) => mleave E (mexec n a ((x, GV (TWrap m n) v) :: E) buf)
      | Some (GV TNone _) => MNext E buf
      | _ => MStuck
      end
  | MCase n a rest =>
      if n =? num then mexec num a E buf else mexec num rest E buf
  | MMake =>
      match lookup "size" E with
      | Some (GInt z) =>
          if z <? 0 then MStuck
          else match assign "dAtA" (GBuf z) E with
               | Some E' => MNext E' (repeat 0 (Z.to_nat z))
               | None => MStuck
               end
      | _ => MStuck
      end
  | MTail e h =>
      if String.eqb h meth then
        match eval sc call E e, lookup "size" E with
        | Some g, Some (GInt i) =>
            match zslice buf 0 i with
            | Some pre =>
                match callee g pre with
                | Ok (pre', n) => MRet (pre' ++ skipn (Z.to_nat i) buf) (GInt n) None
                | Err e _ => MRet buf (GInt 0) (Some e)
                | _ => MStuck
                end
            | None => MStuck
            end
        | _, _ => MStuck
        end
      else MStuck
  | MReturn e r =>
      match eval sc call E e, eval sc call E r with
      | Some g, Some x => match error_of x with Some o => MRet buf g o | None => MStuck end
      | _, _ => MStuck
      end
  end.

(** A method [(dAtA []byte) (int, error)] with receiver [m]. *)
Definition mmethod (s : mstmt) (len : Z) (g : gval) (buf : list Z) : res unit (list Z * Z) :=
  match mexec 0 s [("dAtA", GBuf len); ("m", g)] buf with
  | MRet buf' (GInt n) None => Ok (buf', n)
  | MRet _ _ (Some e) => Err e tt
  | _ => Panic
  end.

(** A method [() (dAtA []byte, err error)]: [None] is the nil slice. *)
Definition mmethod_bytes (s : mstmt) (g : gval) : res unit (option (list Z)) :=
  match mexec 0 s [("err", GErr None); ("dAtA", GBuf 0); ("m", g)] [] with
  | MRet _ GNil None => Ok None
  | MRet buf' (GBuf n) None => do out <- orpanic (zslice buf' 0 n); Ok (Some out)
  | MRet _ _ (Some e) => Err e tt
  | _ => Panic
  end.
End Sem.
