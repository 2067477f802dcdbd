(** Syntax and meaning of the Go in which the hand-written helper functions are written
    (/repo/protohelpers/protohelpers.go, KeySize of /repo/generator/helpers.go): fixed-size
    integers, byte slices, loops, switch and return, following the Go specification.  Text is
    compared without white space. *)
From Coq Require Import ZArith List Bool String Ascii.
From Verif Require Import Base Helpers GoSyntax.
Import ListNotations.
Open Scope string_scope.
Open Scope Z_scope.
Open Scope list_scope.

(** Integer types (int is 64 bits wide; protoreflect.FieldNumber is int32, protowire.Type int8). *)
Inductive hty : Type := HTint | HTint64 | HTuint | HTuint64 | HTuint32 | HTuint8 | HTint32 | HTint8.
Definition hty_eqb (a b : hty) : bool :=
  match a, b with
  | HTint, HTint | HTint64, HTint64 | HTuint, HTuint | HTuint64, HTuint64 | HTuint32, HTuint32 | HTuint8, HTuint8 | HTint32, HTint32 | HTint8, HTint8 => true
  | _, _ => false
  end.
Definition print_hty (t : hty) : string :=
  match t with
  | HTint => "int" | HTint64 => "int64" | HTuint => "uint" | HTuint64 => "uint64" | HTuint32 => "uint32" | HTuint8 => "uint8"
  | HTint32 => "int32" | HTint8 => "int8"
  end.
(** Conversion of an integer to a type, and overflow. *)
Definition wrap (t : hty) (z : Z) : Z :=
  match t with
  | HTint | HTint64 => s64 z
  | HTuint | HTuint64 => u64 z
  | HTuint32 => u32 z
  | HTuint8 => z mod 256
  | HTint32 => s32 z
  | HTint8 => let r := z mod 256 in if r <? 128 then r else r - 256
  end.

(** Operators, by precedence: 5 is [<<], [>>], [&], [/]; 4 is [+], [-], [|], [^]; 3 is the
    comparisons. *)
Inductive hop : Type := HShl | HShr | HAnd | HDiv | HAdd | HSub | HOr | HXor | HGe | HLt | HGt | HEq.
Definition print_hop (o : hop) : string :=
  match o with
  | HShl => "<<" | HShr => ">>" | HAnd => "&" | HDiv => "/" | HAdd => "+" | HSub => "-" | HOr => "|" | HXor => "^"
  | HGe => ">=" | HLt => "<" | HGt => ">" | HEq => "=="
  end.
Definition prec (o : hop) : nat :=
  match o with
  | HShl | HShr | HAnd | HDiv => 5%nat
  | HAdd | HSub | HOr | HXor => 4%nat
  | HGe | HLt | HGt | HEq => 3%nat
  end.

(** Expressions. *)
Inductive hexp : Type :=
| HVar (x : string)
| HLit (text : string)                    (* 0x7f, 64 *)
| HBin (o : hop) (a b : hexp)
| HConv (t : hty) (e : hexp)              (* uint64(e) *)
| HIndex (x : string) (e : hexp)          (* dAtA[e] *)
| HLen (x : string)                       (* len(dAtA) *)
| HLen64 (e : hexp)                       (* bits.Len64(e) *)
| HCall (f : string) (e : hexp)           (* SizeOfVarint(e) *)
| HPar (e : hexp).                        (* (e) *)

(** Results of a return statement. *)
Inductive hres : Type :=
| HValue (e : hexp)
| HNilErr                                 (* nil *)
| HError (e : err) (text : string).       (* an error variable or fmt.Errorf *)

(** Statements.  [HCase]s and [HDefault] occur only in the last argument of [HSwitch]. *)
Inductive hstmt : Type :=
| HSkip
| HSeq (a b : hstmt)
| HDef (x : string) (e : hexp)            (* x := e *)
| HDecl (x : string) (t : hty)            (* var x t *)
| HUpd (x : string) (o : hop) (e : hexp)  (* x op= e *)
| HInc (x : string)                       (* x++ *)
| HDec (x : string)                       (* x-- *)
| HStore (x : string) (i e : hexp)        (* x[i] = e *)
| HIf (c : hexp) (a : hstmt)              (* if c { a } *)
| HWhile (c : hexp) (a : hstmt)           (* for c { a } *)
| HFor (x : string) (e : hexp) (o : hop) (d : hexp) (a : hstmt)  (* for x := e; ; x op= d { a } *)
| HForSet (x : string) (e c : hexp) (a : hstmt)                  (* for x = e; c; x++ { a } *)
| HBreak
| HSwitch (x : string) (a : hstmt)        (* switch x { a } *)
| HCase (z : Z) (a rest : hstmt)          (* case z: a *)
| HDefault (a : hstmt)                    (* default: a *)
| HReturn (l : list hres).

Fixpoint hblock (l : list hstmt) : hstmt :=
  match l with
  | [] => HSkip
  | s :: l' => HSeq s (hblock l')
  end.

(** The text. *)
Fixpoint print_hexp (e : hexp) : string :=
  match e with
  | HVar x => x
  | HLit t => t
  | HBin o a b => print_hexp a ++ print_hop o ++ print_hexp b
  | HConv t e => print_hty t ++ "(" ++ print_hexp e ++ ")"
  | HIndex x e => x ++ "[" ++ print_hexp e ++ "]"
  | HLen x => "len(" ++ x ++ ")"
  | HLen64 e => "bits.Len64(" ++ print_hexp e ++ ")"
  | HCall f e => f ++ "(" ++ print_hexp e ++ ")"
  | HPar e => "(" ++ print_hexp e ++ ")"
  end%string.
Definition print_hres (r : hres) : string :=
  match r with
  | HValue e => print_hexp e
  | HNilErr => "nil"
  | HError _ t => t
  end.
Fixpoint print_hstmt (s : hstmt) : string :=
  match s with
  | HSkip => ""
  | HSeq a b => print_hstmt a ++ print_hstmt b
  | HDef x e => x ++ ":=" ++ print_hexp e
  | HDecl x t => "var" ++ x ++ print_hty t
  | HUpd x o e => x ++ print_hop o ++ "=" ++ print_hexp e
  | HInc x => x ++ "++"
  | HDec x => x ++ "--"
  | HStore x i e => x ++ "[" ++ print_hexp i ++ "]=" ++ print_hexp e
  | HIf c a => "if" ++ print_hexp c ++ "{" ++ print_hstmt a ++ "}"
  | HWhile c a => "for" ++ print_hexp c ++ "{" ++ print_hstmt a ++ "}"
  | HFor x e o d a => "for" ++ x ++ ":=" ++ print_hexp e ++ ";;" ++ x ++ print_hop o ++ "=" ++ print_hexp d ++ "{" ++ print_hstmt a ++ "}"
  | HForSet x e c a => "for" ++ x ++ "=" ++ print_hexp e ++ ";" ++ print_hexp c ++ ";" ++ x ++ "++{" ++ print_hstmt a ++ "}"
  | HBreak => "break"
  | HSwitch x a => "switch" ++ x ++ "{" ++ print_hstmt a ++ "}"
  | HCase z a r => "case" ++ itoa z ++ ":" ++ print_hstmt a ++ print_hstmt r
  | HDefault a => "default:" ++ print_hstmt a
  | HReturn l => "return" ++ String.concat "," (map print_hres l)
  end%string.

(** Whether an expression is what the Go parser reads in its text: operators are left
    associative, the operands of an operator bind tighter.  The examples check it for the
    functions modelled. *)
Definition tightness (e : hexp) : nat := match e with HBin o _ _ => prec o | _ => 6%nat end.
Fixpoint parses (e : hexp) : bool :=
  match e with
  | HBin o a b => parses a && parses b && Nat.leb (prec o) (tightness a) && Nat.ltb (prec o) (tightness b)
  | HConv _ e | HIndex _ e | HLen64 e | HCall _ e | HPar e => parses e
  | _ => true
  end.
Definition parses_res (r : hres) : bool := match r with HValue e => parses e | _ => true end.
Fixpoint parses_stmt (s : hstmt) : bool :=
  match s with
  | HSeq a b => parses_stmt a && parses_stmt b
  | HDef _ e | HUpd _ _ e => parses e
  | HStore _ i e => parses i && parses e
  | HIf c a | HWhile c a => parses c && parses_stmt a
  | HFor _ e _ d a => parses e && parses d && parses_stmt a
  | HForSet _ e c a => parses e && parses c && parses_stmt a
  | HSwitch _ a | HDefault a => parses_stmt a
  | HCase _ a r => parses_stmt a && parses_stmt r
  | HReturn l => forallb parses_res l
  | _ => true
  end.

(** The value of a literal: decimal, or hexadecimal after 0x. *)
Definition digit (c : ascii) : option Z :=
  let n := Z.of_nat (nat_of_ascii c) in
  if (48 <=? n) && (n <=? 57) then Some (n - 48)
  else if (97 <=? n) && (n <=? 102) then Some (n - 87)
  else if (65 <=? n) && (n <=? 70) then Some (n - 55)
  else None.
Fixpoint number (base : Z) (s : string) (acc : Z) : option Z :=
  match s with
  | EmptyString => Some acc
  | String c s' => match digit c with Some d => if d <? base then number base s' (acc * base + d) else None | None => None end
  end.
Definition literal (s : string) : option Z :=
  match s with
  | String "0" (String "x" s') => number 16 s' 0
  | _ => number 10 s 0
  end.

(** Values: typed integers, constants without type, byte slices, truth values. *)
Inductive hval : Type := HI (t : hty) (z : Z) | HC (z : Z) | HB (l : list Z) | HTruth (b : bool).
Definition henv : Type := list (string * hval).
Fixpoint hlookup (x : string) (E : henv) : option hval :=
  match E with
  | [] => None
  | (y, v) :: E' => if String.eqb x y then Some v else hlookup x E'
  end.
Fixpoint hassign (x : string) (v : hval) (E : henv) : option henv :=
  match E with
  | [] => None
  | (y, w) :: E' => if String.eqb x y then Some ((y, v) :: E') else option_map (cons (y, w)) (hassign x v E')
  end.
(** Leaving a block: its variables are gone. *)
Definition hleave (E E' : henv) : henv := skipn (List.length E' - List.length E) E'.

(** An operator on two integers of a type; [None]: division by zero, negative shift count. *)
Definition harith (o : hop) (a b : Z) : option Z :=
  match o with
  | HShl => if b <? 0 then None else Some (Z.shiftl a b)
  | HShr => if b <? 0 then None else Some (Z.shiftr a b)
  | HAnd => Some (Z.land a b)
  | HDiv => if b =? 0 then None else Some (Z.quot a b)
  | HAdd => Some (a + b)
  | HSub => Some (a - b)
  | HOr => Some (Z.lor a b)
  | HXor => Some (Z.lxor a b)
  | _ => None
  end.
Definition hcompare (o : hop) (a b : Z) : option bool :=
  match o with
  | HGe => Some (b <=? a)
  | HLt => Some (a <? b)
  | HGt => Some (b <? a)
  | HEq => Some (a =? b)
  | _ => None
  end.
(** Operands must have the same type; a constant takes the type of the other operand; the count of
    a shift has any integer type. *)
Definition hbin (o : hop) (a b : hval) : option hval :=
  match o with
  | HShl | HShr =>
      match a, b with
      | HI t x, (HI _ y | HC y) => option_map (fun z => HI t (wrap t z)) (harith o x y)
      | HC x, HC y => option_map HC (harith o x y)
      | _, _ => None
      end
  | HGe | HLt | HGt | HEq =>
      match a, b with
      | HI t x, HI t' y => if hty_eqb t t' then option_map HTruth (hcompare o x y) else None
      | HI t x, HC y | HC x, HI t y => option_map HTruth (hcompare o x y)
      | _, _ => None
      end
  | _ =>
      match a, b with
      | HI t x, HI t' y => if hty_eqb t t' then option_map (fun z => HI t (wrap t z)) (harith o x y) else None
      | HI t x, HC y | HC x, HI t y => option_map (fun z => HI t (wrap t z)) (harith o x y)
      | HC x, HC y => option_map HC (harith o x y)
      | _, _ => None
      end
  end.
Definition hint (v : hval) : option Z := match v with HI _ z | HC z => Some z | _ => None end.
Definition hobind {A B} (o : option A) (f : A -> option B) : option B := match o with Some a => f a | None => None end.

(** What statements lead to. *)
Inductive hret : Type := RInt (z : Z) | RNil | RErr (e : err).
Inductive hout : Type :=
| HNext (E : henv)
| HBroke (E : henv)
| HDone (l : list hret) (E : henv)
| HPanic                                   (* panic, or a program the compiler rejects *)
| HMore.                                   (* a loop ran for more than [rounds] rounds *)

Section Sem.
(** The functions of the package, and a bound on the rounds of a loop. *)
Variable call : string -> hval -> option hval.
Variable rounds : nat.

Fixpoint heval (e : hexp) (E : henv) : option hval :=
  match e with
  | HVar x => hlookup x E
  | HLit t => option_map HC (literal t)
  | HBin o a b => hobind (heval a E) (fun x => hobind (heval b E) (hbin o x))
  | HConv t e => hobind (hobind (heval e E) hint) (fun z => Some (HI t (wrap t z)))
  | HIndex x e =>
      match hlookup x E with
      | Some (HB l) => hobind (hobind (heval e E) hint) (fun i => option_map (HI HTuint8) (zget l i))
      | _ => None
      end
  | HLen x => match hlookup x E with Some (HB l) => Some (HI HTint (zlen l)) | _ => None end
  | HLen64 e => match heval e E with Some (HI HTuint64 z) => Some (HI HTint (Len64 z)) | _ => None end
  | HCall f e => hobind (heval e E) (call f)
  | HPar e => heval e E
  end.
(** The type a variable gets: int for a constant. *)
Definition hdefault (v : hval) : hval := match v with HC z => HI HTint z | _ => v end.

Definition hset (x : string) (o : option hval) (E : henv) : hout :=
  match hobind o (fun v => hassign x v E) with Some E' => HNext E' | None => HPanic end.
Definition hupdate (x : string) (o : hop) (v : option hval) (E : henv) : hout :=
  hset x (hobind (hlookup x E) (fun a => hobind v (hbin o a))) E.

Fixpoint hresults (l : list hres) (E : henv) : option (list hret) :=
  match l with
  | [] => Some []
  | r :: l' =>
      hobind (match r with
              | HValue e => option_map RInt (hobind (heval e E) hint)
              | HNilErr => Some RNil
              | HError e _ => Some (RErr e)
              end) (fun x => option_map (cons x) (hresults l' E))
  end.

(** A loop: [cond] before each round, [post] after it; break leaves it.  A block's variables are
    dropped at its end. *)
Fixpoint hloop (k : nat) (cond : henv -> option bool) (body post : henv -> hout) (E : henv) : hout :=
  match k with
  | O => HMore
  | S k' =>
      match cond E with
      | Some true =>
          match body E with
          | HNext E1 =>
              match post (hleave E E1) with
              | HNext E2 => hloop k' cond body post E2
              | r => r
              end
          | HBroke E1 => HNext (hleave E E1)
          | r => r
          end
      | Some false => HNext E
      | None => HPanic
      end
  end.
Definition hcond (c : hexp) (E : henv) : option bool :=
  match heval c E with Some (HTruth b) => Some b | _ => None end.

Fixpoint hexec (s : hstmt) (E : henv) : hout :=
  match s with
  | HSkip => HNext E
  | HSeq a b => match hexec a E with HNext E1 => hexec b E1 | r => r end
  | HDef x e => match heval e E with Some v => HNext ((x, hdefault v) :: E) | None => HPanic end
  | HDecl x t => HNext ((x, HI t 0) :: E)
  | HUpd x o e => hupdate x o (heval e E) E
  | HInc x => hupdate x HAdd (Some (HC 1)) E
  | HDec x => hupdate x HSub (Some (HC 1)) E
  | HStore x i e =>
      match hlookup x E, hobind (heval i E) hint, heval e E with
      | Some (HB l), Some i, Some (HI HTuint8 b) => hset x (option_map HB (zset l i b)) E
      | _, _, _ => HPanic
      end
  | HIf c a =>
      match hcond c E with
      | Some true =>
          match hexec a E with
          | HNext E1 => HNext (hleave E E1)
          | HBroke E1 => HBroke (hleave E E1)
          | r => r
          end
      | Some false => HNext E
      | None => HPanic
      end
  | HWhile c a => hloop rounds (hcond c) (hexec a) HNext E
  | HFor x e o d a =>
      match heval e E with
      | Some v =>
          match hloop rounds (fun _ => Some true) (hexec a) (fun E1 => hupdate x o (heval d E1) E1) ((x, hdefault v) :: E) with
          | HNext E1 => HNext (hleave E E1)
          | HBroke E1 => HBroke (hleave E E1)
          | r => r
          end
      | None => HPanic
      end
  | HForSet x e c a =>
      match hset x (hobind (hlookup x E) (fun old => hobind (heval e E) (fun v =>
              match old, v with HI t _, HC z => Some (HI t (wrap t z)) | HI t _, HI t' _ => if hty_eqb t t' then Some v else None | _, _ => None end))) E with
      | HNext E1 => hloop rounds (hcond c) (hexec a) (hupdate x HAdd (Some (HC 1))) E1
      | r => r
      end
  | HBreak => HBroke E
  | HSwitch x a =>
      (* break leaves the switch *)
      match hexec a (("switch", match hlookup x E with Some v => v | None => HTruth false end) :: E) with
      | HNext E1 | HBroke E1 => HNext (hleave E E1)
      | r => r
      end
  | HCase z a r =>
      match hlookup "switch" E with
      | Some (HI _ v) => if v =? z then hexec a E else hexec r E
      | _ => HPanic
      end
  | HDefault a => hexec a E
  | HReturn l => match hresults l E with Some r => HDone r E | None => HPanic end
  end.
End Sem.
