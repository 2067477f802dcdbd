(** Syntax of the Go code the generator prints: the statements and expressions
    that occur in generated methods, and their text.  This models the target of
    the [p.P(...)] calls of /repo/features, not a file of /repo itself; each
    constructor names a place that prints it.  Text is printed without white
    space (gofmt rearranges white space, nothing else). *)
From Coq Require Import ZArith List Bool String Ascii.
Import ListNotations.
Open Scope string_scope.
Open Scope Z_scope.

(** A member of a generated struct: the member of slot [s] of a message, the one
    member of the wrapper of the oneof field with number [num], or
    [unknownFields] (size.go:324). *)
Inductive member : Type := MSlot (s : nat) | MIn (num : Z) | MUnknown.

(** Expressions. *)
Inductive expr : Type :=
| EVar (x : string)                 (* l *)
| EInt (z : Z)                      (* 8 *)
| ENil                              (* nil *)
| ESel (e : expr) (f : member)      (* m.F, size.go:66 *)
| EStar (e : expr)                  (* *m.F, size.go:114 *)
| ELen (e : expr)                   (* len(m.F), size.go:66 *)
| EU64 (e : expr)                   (* uint64(l), size.go:80 *)
| EAdd (a b : expr)                 (* a+b *)
| EMul (a b : expr)                 (* a*b, size.go:80,82 *)
| EEq (a b : expr)                  (* a == b, size.go:293 *)
| ENe (a b : expr)                  (* a != b, size.go:68 *)
| EGt (a b : expr)                  (* a > b, size.go:66 *)
| EHelper (h : string) (e : expr)   (* protohelpers.SizeOfVarint(e), size.go:80 *)
| EMeth (e : expr) (h : string)     (* e.SizeVT(), size.go:48 *)
| EProto (h : string) (e : expr)    (* proto.Size(e), size.go:56 *)
| ECast (m : nat) (e : expr)        (* ( *structpb1.Value)(e), size.go:45 *)
| ECastIn (num : Z) (e : expr)      (* ( *Value_NullValue)(c), size.go:313 *)
| EPar (e : expr)                   (* (e) *)
| EHex (z : Z)                      (* 0xa, marshalto.go:79 *)
| EIdx (a b : expr)                 (* m.F[iNdEx], m.F[k], marshalto.go:388,705 *)
| ESub (a b : expr)                 (* a-b, marshalto.go:398 *)
| EU32 (e : expr)                   (* uint32(e), marshalto.go:61 *)
| EU8 (e : expr)                    (* uint8(e), marshalto.go:212 *)
| EF64 (e : expr)                   (* math.Float64bits(float64(e)), marshalto.go:86 *)
| EF32 (e : expr)                   (* math.Float32bits(float32(e)), marshalto.go:88 *)
| EShl (e : expr) (n : Z)           (* e<<1, marshalto.go:107 *)
| EShr (e : expr) (n : Z)           (* e>>31, marshalto.go:107 *)
| EXor (a b : expr)                 (* a^b, marshalto.go:107 *)
| EAnd (a b : expr)                 (* a&b, marshalto.go:212 *)
| EOr (a b : expr)                  (* a|b, marshalto.go:212 *)
| ERequiredErr (num : Z)            (* fmt.Errorf("proto: required field f not set"), marshalto.go:124 *)
| EPrefix (x : string).             (* dAtA[:x], marshalto.go:585 *)

(** Statements.  [SCase]s occur only in the last argument of [SSwitch]. *)
Inductive stmt : Type :=
| SSkip
| SSeq (a b : stmt)
| SVar (x : string)                             (* var l int, size.go:296 *)
| SBlank (x : string)                           (* _ = l, size.go:297 *)
| SDef (x : string) (e : expr)                  (* mapEntrySize := e, size.go:211 *)
| SSet (x : string) (e : expr)                  (* l = e, size.go:48 *)
| SAddTo (x : string) (e : expr)                (* n += e, size.go:80 *)
| SIf (c : expr) (a b : stmt)                   (* if c { a } else { b }, size.go:66,273 *)
| SAssert (x : string) (boxed : bool) (e : expr) (h : string) (a b : stmt)
    (* if x, ok := e.( interface{h() int}); ok { a } else { b }, with [boxed]:
       interface{}(e), size.go:51-57, 317-319 *)
| SRange (k v : string) (e : expr) (a : stmt)   (* for k, v := range e { a }, size.go:105 *)
| SSwitch (x : string) (e : expr) (a : stmt)    (* switch x := e.(type) { a }, size.go:310 *)
| SCase (num : Z) (a rest : stmt)               (* case *Value_NullValue: a, size.go:312 *)
| SReturn (e : expr).                           (* return n, size.go:326 *)

(** The statements printed one after the other. *)
Fixpoint block (l : list stmt) : stmt :=
  match l with
  | [] => SSkip
  | s :: l' => SSeq s (block l')
  end.

(** Go identifiers protogen assigns (field.GoName, field.Oneof.GoName,
    field.GoIdent, WellKnownTypeMap, WellKnownFieldMap); they are data of the
    descriptor. *)
Record names : Type := mkN {
  n_slot : nat -> string;      (* struct member *)
  n_in : Z -> string;          (* the member of a oneof wrapper: the field's name *)
  n_wrap : Z -> string;        (* field.GoIdent: type of the wrapper *)
  n_cast : nat -> string;      (* type of the package of well-known types *)
  n_castin : Z -> string;      (* WellKnownFieldMap *)
  n_proto : Z -> string }.     (* field.Desc.Name *)

(** Decimal digits (strconv.Itoa). *)
Fixpoint digits (fuel : nat) (z : Z) : string :=
  match fuel with
  | O => ""
  | S fuel' =>
      let d := String (ascii_of_nat (48 + Z.to_nat (z mod 10))) "" in
      if z <? 10 then d else digits fuel' (z / 10) ++ d
  end.
Definition itoa (z : Z) : string := digits 20 z.

(** [fmt.Sprintf("%#v", b)] of a byte (marshalto.go:79). *)
Definition hex_digit (z : Z) : string :=
  String (ascii_of_nat ((if z <? 10 then 48 else 87) + Z.to_nat z)) "".
Definition hex (z : Z) : string :=
  "0x" ++ (if z <? 16 then "" else hex_digit (z / 16)) ++ hex_digit (z mod 16).

Section Print.
Variable nm : names.

(** The text of an expression.  The operands of the generated sums and products
    are such that no parentheses are needed. *)
Fixpoint print_expr (e : expr) : string :=
  match e with
  | EVar x => x
  | EInt z => itoa z
  | ENil => "nil"
  | ESel e (MSlot s) => print_expr e ++ "." ++ n_slot nm s
  | ESel e (MIn n) => print_expr e ++ "." ++ n_in nm n
  | ESel e MUnknown => print_expr e ++ ".unknownFields"
  | EStar e => "*" ++ print_expr e
  | ELen e => "len(" ++ print_expr e ++ ")"
  | EU64 e => "uint64(" ++ print_expr e ++ ")"
  | EAdd a b => print_expr a ++ "+" ++ print_expr b
  | EMul a b => print_expr a ++ "*" ++ print_expr b
  | EEq a b => print_expr a ++ "==" ++ print_expr b
  | ENe a b => print_expr a ++ "!=" ++ print_expr b
  | EGt a b => print_expr a ++ ">" ++ print_expr b
  | EHelper h e => "protohelpers." ++ h ++ "(" ++ print_expr e ++ ")"
  | EMeth e h => print_expr e ++ "." ++ h ++ "()"
  | EProto h e => "proto." ++ h ++ "(" ++ print_expr e ++ ")"
  | ECast m e => "(*" ++ n_cast nm m ++ ")(" ++ print_expr e ++ ")"
  | ECastIn n e => "(*" ++ n_castin nm n ++ ")(" ++ print_expr e ++ ")"
  | EPar e => "(" ++ print_expr e ++ ")"
  | EHex z => hex z
  | EIdx a b => print_expr a ++ "[" ++ print_expr b ++ "]"
  | ESub a b => print_expr a ++ "-" ++ print_expr b
  | EU32 e => "uint32(" ++ print_expr e ++ ")"
  | EU8 e => "uint8(" ++ print_expr e ++ ")"
  | EF64 e => "math.Float64bits(float64(" ++ print_expr e ++ "))"
  | EF32 e => "math.Float32bits(float32(" ++ print_expr e ++ "))"
  | EShl e n => print_expr e ++ "<<" ++ itoa n
  | EShr e n => print_expr e ++ ">>" ++ itoa n
  | EXor a b => print_expr a ++ "^" ++ print_expr b
  | EAnd a b => print_expr a ++ "&" ++ print_expr b
  | EOr a b => print_expr a ++ "|" ++ print_expr b
  | ERequiredErr n => "fmt.Errorf(""proto:requiredfield" ++ n_proto nm n ++ "notset"")"
  | EPrefix x => "dAtA[:" ++ x ++ "]"
  end.

(** The text of a statement. *)
Fixpoint print_stmt (s : stmt) : string :=
  match s with
  | SSkip => ""
  | SSeq a b => print_stmt a ++ print_stmt b
  | SVar x => "var" ++ x ++ "int"
  | SBlank x => "_=" ++ x
  | SDef x e => x ++ ":=" ++ print_expr e
  | SSet x e => x ++ "=" ++ print_expr e
  | SAddTo x e => x ++ "+=" ++ print_expr e
  | SIf c a b =>
      "if" ++ print_expr c ++ "{" ++ print_stmt a ++ "}"
      ++ match b with SSkip => "" | _ => "else{" ++ print_stmt b ++ "}" end
  | SAssert x boxed e h a b =>
      "if" ++ x ++ ",ok:="
      ++ (if boxed then "interface{}(" ++ print_expr e ++ ")" else print_expr e)
      ++ ".(interface{" ++ h ++ "()int});ok{" ++ print_stmt a ++ "}"
      ++ match b with SSkip => "" | _ => "else{" ++ print_stmt b ++ "}" end
  | SRange k v e a =>
      "for" ++ k ++ "," ++ v ++ ":=range" ++ print_expr e ++ "{" ++ print_stmt a ++ "}"
  | SSwitch x e a =>
      "switch" ++ x ++ ":=" ++ print_expr e ++ ".(type){" ++ print_stmt a ++ "}"
  | SCase n a rest => "case*" ++ n_wrap nm n ++ ":" ++ print_stmt a ++ print_stmt rest
  | SReturn e => "return" ++ print_expr e
  end.
End Print.

(** A text without its white space: spaces, tabs and line breaks. *)
Fixpoint squeeze (s : string) : string :=
  match s with
  | EmptyString => EmptyString
  | String c s' =>
      if (Ascii.eqb c " " || Ascii.eqb c (ascii_of_nat 9) || Ascii.eqb c (ascii_of_nat 10))%bool
      then squeeze s' else String c (squeeze s')
  end.
