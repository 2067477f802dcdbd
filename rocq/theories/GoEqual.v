(** Syntax and meaning of the Go code printed for EqualVT: the statements and expressions that
    occur in the methods /repo/features/equal/equal.go prints, their text without white space,
    and what the Go specification says they do.  [None] / [QStuck] is a run-time panic or a
    program the compiler rejects; the theorems show that it does not happen. *)
From Coq Require Import ZArith List Bool String.
From Verif Require Import Base Schema Value Helpers Unmarshal Equal GoSyntax GoSem.
Import ListNotations.
Open Scope string_scope.
Open Scope Z_scope.
Open Scope list_scope.

(** Expressions. *)
Inductive qexp : Type :=
| XVar (x : string)               (* this *)
| XNil                            (* nil *)
| XTrue                           (* true *)
| XFalse                          (* false *)
| XSel (e : qexp) (f : member)    (* this.F, equal.go:194 *)
| XStar (e : qexp)                (* *p, equal.go:239 *)
| XLen (e : qexp)                 (* len(this.F), equal.go:198 *)
| XString (e : qexp)              (* string(p), equal.go:249 *)
| XEq (a b : qexp)                (* a == b *)
| XNe (a b : qexp)                (* a != b *)
| XAnd (a b : qexp)               (* a && b *)
| XOr (a b : qexp)                (* a || b *)
| XNot (a : qexp)                 (* !a *)
| XPar (a : qexp)                 (* (a) *)
| XCast (m : nat) (e : qexp)      (* ( *structpb1.Value)(p), equal.go:277 *)
| XCastIn (n : Z) (e : qexp)      (* ( *Value_NullValue)(c), equal.go:94 *)
| XEqual (a b : qexp)             (* a.EqualVT(b), equal.go:281 *)
| XIface (s : nat) (e : qexp)     (* e.( interface{EqualVT(isT_F) bool}), equal.go:100 *)
| XProto (a b : qexp).            (* proto.Equal(a, b), equal.go:289 *)

(** Statements.  [QCase]s occur only in the last argument of [QSwitch].  [fn]: the number of the
    field whose message type is named. *)
Inductive qstmt : Type :=
| QSkip
| QSeq (a b : qstmt)
| QIf (c : qexp) (a b : qstmt)                      (* if c { a } else { b } *)
| QWith (a b c : qexp) (s : qstmt)                  (* if p, q := a, b; c { s }, equal.go:239,249,263 *)
| QRange (e : qexp) (s : qstmt)                     (* for i, vx := range e { s }, equal.go:201 *)
| QElem (e : qexp)                                  (* vy := e[i], equal.go:210 *)
| QEntry (e : qexp)                                 (* vy, ok := e[i], equal.go:203 *)
| QNew (x : string) (fn : Z) (m : nat)              (* x = &T{}, equal.go:267,270 *)
| QSwitch (e : qexp) (s : qstmt)                    (* switch c := e.(type) { s }, equal.go:91 *)
| QCase (num : Z) (s rest : qstmt)                  (* case *Value_NullValue: s, equal.go:93 *)
| QHas (e : qexp) (fn : Z) (s t : qstmt)
    (* if equal, ok := interface{}(e).( interface{EqualVT( *T) bool}); ok { s } else t, equal.go:285 *)
| QThat (num : Z)                                   (* that, ok := thatIface.( *T_F), equal.go:153 *)
| QOther (num : Z) (s t : qstmt)
    (* if ot, ok := thatIface.( *structpb.Value_NullValue); ok { s } else { t }, equal.go:156 *)
| QConvert (num : Z)                                (* that = ( *Value_NullValue)(ot), equal.go:157 *)
| QThatMsg                                          (* that, ok := thatMsg.( *T), equal.go:125 *)
| QRet (e : qexp).                                  (* return e *)

Fixpoint qblock (l : list qstmt) : qstmt :=
  match l with
  | [] => QSkip
  | s :: l' => QSeq s (qblock l')
  end.

Section Print.
Variable nm : names.
(** The Go name of the message type of a field (p.QualifiedGoIdent), and of the message. *)
Variable tname : Z -> string.
Variable self : string.

Local Open Scope string_scope.
Fixpoint print_qexp (e : qexp) : string :=
  match e with
  | XVar x => x
  | XNil => "nil"
  | XTrue => "true"
  | XFalse => "false"
  | XSel e (MSlot s) => print_qexp e ++ "." ++ n_slot nm s
  | XSel e (MIn n) => print_qexp e ++ "." ++ n_in nm n
  | XSel e MUnknown => print_qexp e ++ ".unknownFields"
  | XStar e => "*" ++ print_qexp e
  | XLen e => "len(" ++ print_qexp e ++ ")"
  | XString e => "string(" ++ print_qexp e ++ ")"
  | XEq a b => print_qexp a ++ "==" ++ print_qexp b
  | XNe a b => print_qexp a ++ "!=" ++ print_qexp b
  | XAnd a b => print_qexp a ++ "&&" ++ print_qexp b
  | XOr a b => print_qexp a ++ "||" ++ print_qexp b
  | XNot a => "!" ++ print_qexp a
  | XPar a => "(" ++ print_qexp a ++ ")"
  | XCast m e => "(*" ++ n_cast nm m ++ ")(" ++ print_qexp e ++ ")"
  | XCastIn n e => "(*" ++ n_castin nm n ++ ")(" ++ print_qexp e ++ ")"
  | XEqual a b => print_qexp a ++ ".EqualVT(" ++ print_qexp b ++ ")"
  | XIface s e => print_qexp e ++ ".(interface{EqualVT(is" ++ self ++ "_" ++ n_slot nm s ++ ")bool})"
  | XProto a b => "proto.Equal(" ++ print_qexp a ++ "," ++ print_qexp b ++ ")"
  end.

(** [else if] is printed for an if statement in the other branch. *)
Fixpoint print_qstmt (s : qstmt) : string :=
  match s with
  | QSkip => ""
  | QSeq a b => print_qstmt a ++ print_qstmt b
  | QIf c a b =>
      "if" ++ print_qexp c ++ "{" ++ print_qstmt a ++ "}"
      ++ match b with
         | QSkip => ""
         | QIf _ _ _ => "else" ++ print_qstmt b
         | _ => "else{" ++ print_qstmt b ++ "}"
         end
  | QWith a b c s =>
      "ifp,q:=" ++ print_qexp a ++ "," ++ print_qexp b ++ ";" ++ print_qexp c ++ "{" ++ print_qstmt s ++ "}"
  | QRange e s => "fori,vx:=range" ++ print_qexp e ++ "{" ++ print_qstmt s ++ "}"
  | QElem e => "vy:=" ++ print_qexp e ++ "[i]"
  | QEntry e => "vy,ok:=" ++ print_qexp e ++ "[i]"
  | QNew x fn m => x ++ "=&" ++ tname fn ++ "{}"
  | QSwitch e s => "switchc:=" ++ print_qexp e ++ ".(type){" ++ print_qstmt s ++ "}"
  | QCase n s rest => "case*" ++ n_wrap nm n ++ ":" ++ print_qstmt s ++ print_qstmt rest
  | QHas e fn s t =>
      "ifequal,ok:=interface{}(" ++ print_qexp e ++ ").(interface{EqualVT(*" ++ tname fn ++ ")bool});ok{"
      ++ print_qstmt s ++ "}else" ++ print_qstmt t
  | QThat n => "that,ok:=thatIface.(*" ++ n_castin nm n ++ ")"
  | QOther n s t =>
      "ifot,ok:=thatIface.(*" ++ n_wrap nm n ++ ");ok{" ++ print_qstmt s ++ "}else{" ++ print_qstmt t ++ "}"
  | QConvert n => "that=(*" ++ n_castin nm n ++ ")(ot)"
  | QThatMsg => "that,ok:=thatMsg.(*" ++ self ++ ")"
  | QRet e => "return" ++ print_qexp e
  end.
End Print.

(** Values: of one of the types of GoSem.v, with the position in the operand of the outermost
    call where it was found, which names its pointer; a pointer to a oneof wrapper converted to
    the type a package of well-known types defines for it; a bool, an int, a string or nil. *)
Inductive qval : Type :=
| QV (t : gtype) (pos : list step) (v : val)
| QC (m : nat) (num : Z) (pos : list step) (v : val)
| QBool (b : bool)
| QInt (z : Z)
| QStr (s : list Z)
| QNone.

Definition qenv := list (string * qval).
Fixpoint qlookup (x : string) (E : qenv) : option qval :=
  match E with
  | [] => None
  | (y, g) :: E' => if String.eqb x y then Some g else qlookup x E'
  end.
Fixpoint qassign (x : string) (g : qval) (E : qenv) : option qenv :=
  match E with
  | [] => None
  | (y, h) :: E' =>
      if String.eqb x y then Some ((y, g) :: E')
      else match qassign x g E' with Some E'' => Some ((y, h) :: E'') | None => None end
  end.

(** Positions of the member of a wrapper, of an element and of a map value, given those of the
    wrapper, the list and the map. *)
Definition in_pos (pos : list step) : list step :=
  match pos with SWrap s :: p => SField s :: p | _ => pos end.
Definition elem_pos (pos : list step) (i : nat) : list step :=
  match pos with SField s :: p => SElem s i :: p | _ => pos end.
Definition entry_pos (pos : list step) (k : val) : list step :=
  match pos with SField s :: p => SKey s k :: p | _ => pos end.

Section Sem.
Variable sc : schema.
(** Are the pointers found at two positions of the two operands the same pointer?  Positions
    that hold nil name the new message the code substitutes for it. *)
Variable same : list step -> list step -> bool.

(** [x.F] *)
Definition qselect (g : qval) (f : member) : option qval :=
  match g, f with
  | QV (TMsg m) pos (VMsg slots unk _), MSlot s =>
      match find (fun f => Nat.eqb (f_slot f) s) (md_fields (md_of sc m)) with
      | Some f =>
          if is_oneof f then
            match slot slots s with
            | VOneof num x => Some (QV (TWrap m num) (SWrap s :: pos) (VOneof num x))
            | VNil => Some (QV TNone (SWrap s :: pos) VNil)
            | _ => None
            end
          else Some (QV (field_type (f_ty f)) (SField s :: pos) (slot slots s))
      | None => None
      end
  | QV (TMsg m) pos (VMsg slots unk _), MUnknown => Some (QV (TKind KBytes) pos (VBytes unk))
  | QV (TWrap m num) pos (VOneof num' x), MIn n | QC m num pos (VOneof num' x), MIn n =>
      if (n =? num) && (num =? num') then
        match find_field num (md_fields (md_of sc m)) with
        | Some f =>
            match f_ty f with
            | TField _ k => Some (QV (kind_type k) (in_pos pos) x)
            | TMap _ _ => None
            end
        | None => None
        end
      else None
  | _, _ => None
  end.

(** [*x] *)
Definition qload (g : qval) : option qval :=
  match g with QV (TPtr k) pos (VPtr v) => Some (QV (TKind k) pos v) | _ => None end.

(** [len(x)] of a list or map *)
Definition qlen (g : qval) : option qval :=
  match g with
  | QV (TSlice _) _ (VList l) => Some (QInt (zlen l))
  | QV (TMapOf _ _) _ (VMap l) => Some (QInt (zlen l))
  | QV (TSlice _ | TMapOf _ _) _ VNil => Some (QInt 0)
  | _ => None
  end.

(** [string(x)] of a byte slice *)
Definition qstring (g : qval) : option qval :=
  match g with
  | QV (TKind KBytes) _ (VBytes s | VRefB _ s) => Some (QStr s)
  | QV (TKind KBytes) _ VNil => Some (QStr [])
  | _ => None
  end.

(** Are two kinds represented by the same Go type?  The generated code compares values of one
    field only. *)
Definition kind_eqb (k k' : kind) : bool :=
  match k, k' with
  | KDouble, KDouble | KFloat, KFloat | KInt64, KInt64 | KUint64, KUint64 | KInt32, KInt32
  | KFixed64, KFixed64 | KFixed32, KFixed32 | KBool, KBool | KString, KString
  | KBytes, KBytes | KUint32, KUint32 | KEnum, KEnum
  | KSfixed32, KSfixed32 | KSfixed64, KSfixed64 | KSint32, KSint32 | KSint64, KSint64 => true
  | _, _ => false
  end.

(** [a == b]: with nil; of ints, of strings made from bytes, of scalars of the same type (floats
    follow IEEE 754, [num_eqb]), of pointers of the same type (the same pointer, so the same
    content).  Slices and maps are not comparable. *)
Definition qequals (a b : qval) : option bool :=
  match a, b with
  | QV (TKind KBytes | TPtr _ | TSlice _ | TMapOf _ _ | TMsg _ | TWrap _ _ | TNone) _ v, QNone => Some (is_nil v)
  | QC _ _ _ v, QNone => Some (is_nil v)
  | QInt x, QInt y => Some (x =? y)
  | QStr s, QStr t => Some (str_eqb s t)
  | QV (TKind KString) _ (VStr s | VRefS _ s), QV (TKind KString) _ (VStr t | VRefS _ t) => Some (str_eqb s t)
  | QV (TKind k) _ (VInt x), QV (TKind k') _ (VInt y) => if kind_eqb k k' then Some (num_eqb k x y) else None
  | QV (TMsg m) p x, QV (TMsg m') p' y => if Nat.eqb m m' then Some (ptr_eqb (same p p') x y) else None
  | QV (TWrap m n) p x, QV (TWrap m' n') p' y | QC m n p x, QC m' n' p' y =>
      if Nat.eqb m m' && (n =? n') then Some (ptr_eqb (same p p') x y) else None
  | _, _ => None
  end.

(** The EqualVT methods of the values one call further down, and upstream's proto.Equal. *)
Variable call : qval -> qval -> option bool.
Definition qproto (a b : qval) : option bool :=
  match a, b with
  | QV (TMsg m) _ x, QV (TMsg m') _ y => if Nat.eqb m m' then Some (up_eq (sc_up sc) m x y) else None
  | _, _ => None
  end.
Definition qbool (o : option bool) : option qval :=
  match o with Some b => Some (QBool b) | None => None end.

(** [&&] and [||] evaluate their second operand only if needed. *)
Fixpoint qeval (E : qenv) (e : qexp) : option qval :=
  match e with
  | XVar x => qlookup x E
  | XNil => Some QNone
  | XTrue => Some (QBool true)
  | XFalse => Some (QBool false)
  | XSel e f => match qeval E e with Some g => qselect g f | None => None end
  | XStar e => match qeval E e with Some g => qload g | None => None end
  | XLen e => match qeval E e with Some g => qlen g | None => None end
  | XString e => match qeval E e with Some g => qstring g | None => None end
  | XEq a b =>
      match qeval E a, qeval E b with Some x, Some y => qbool (qequals x y) | _, _ => None end
  | XNe a b =>
      match qeval E a, qeval E b with Some x, Some y => qbool (option_map negb (qequals x y)) | _, _ => None end
  | XAnd a b =>
      match qeval E a with
      | Some (QBool true) => match qeval E b with Some (QBool r) => Some (QBool r) | _ => None end
      | Some (QBool false) => Some (QBool false)
      | _ => None
      end
  | XOr a b =>
      match qeval E a with
      | Some (QBool false) => match qeval E b with Some (QBool r) => Some (QBool r) | _ => None end
      | Some (QBool true) => Some (QBool true)
      | _ => None
      end
  | XNot a => match qeval E a with Some (QBool b) => Some (QBool (negb b)) | _ => None end
  | XPar a => qeval E a
  | XCast m e =>
      match qeval E e with
      | Some (QV (TMsg m') p v) => if Nat.eqb m m' then Some (QV (TMsg m) p v) else None
      | _ => None
      end
  | XCastIn n e =>
      match qeval E e with
      | Some (QV (TWrap m n') p v) => if n =? n' then Some (QC m n' p v) else None
      | _ => None
      end
  | XEqual a b =>
      match qeval E a, qeval E b with Some x, Some y => qbool (call x y) | _, _ => None end
  | XIface _ e => match qeval E e with Some (QV (TWrap m n) p v) => Some (QV (TWrap m n) p v) | _ => None end
  | XProto a b =>
      match qeval E a, qeval E b with Some x, Some y => qbool (qproto x y) | _, _ => None end
  end.

(** What a statement does: go on, return a bool, or fail. *)
Inductive qout : Type := QNext (E : qenv) | QDone (b : bool) | QStuck.

(** The end of a block: the variables declared in it are gone. *)
Definition qleave (E : qenv) (o : qout) : qout :=
  match o with QNext E' => QNext (skipn (List.length E' - List.length E) E') | _ => o end.

(** What a range clause goes through: index or key, and value. *)
Fixpoint elems (k : kind) (pos : list step) (i : nat) (l : list val) : list (qval * qval) :=
  match l with
  | [] => []
  | x :: l' => (QInt (Z.of_nat i), QV (kind_type k) (elem_pos pos i) x) :: elems k pos (S i) l'
  end.
Definition qitems (g : qval) : option (list (qval * qval)) :=
  match g with
  | QV (TSlice k) pos (VList l) => Some (elems k pos 0 l)
  | QV (TMapOf kk vk) pos (VMap l) =>
      Some (map (fun e => (QV (kind_type kk) [] (fst e), QV (kind_type vk) (entry_pos pos (fst e)) (snd e))) l)
  | QV (TSlice _ | TMapOf _ _) _ VNil => Some []
  | _ => None
  end.
Fixpoint qloop (body : qenv -> qout) (l : list (qval * qval)) (E : qenv) : qout :=
  match l with
  | [] => QNext E
  | (a, b) :: l' =>
      match qleave E (body (("vx", b) :: ("i", a) :: E)) with
      | QNext E' => qloop body l' E'
      | o => o
      end
  end.

(** [g[i]] of a slice, which panics out of range, and of a map. *)
Definition qindex (g i : qval) : option qval :=
  match g, i with
  | QV (TSlice k) pos (VList l), QInt z =>
      if z <? 0 then None
      else match nth_error l (Z.to_nat z) with
           | Some x => Some (QV (kind_type k) (elem_pos pos (Z.to_nat z)) x)
           | None => None
           end
  | _, _ => None
  end.
Definition qentry (g i : qval) : option (option qval) :=
  match g, i with
  | QV (TMapOf kk vk) pos (VMap l), QV (TKind _) _ k =>
      match map_get l k with
      | Some x => Some (Some (QV (kind_type vk) (entry_pos pos k) x))
      | None => Some None
      end
  | QV (TMapOf kk vk) pos VNil, QV (TKind _) _ k => Some None
  | _, _ => None
  end.

(** [num]: the dynamic type of the operand of the enclosing type switch.  In a package of
    well-known types the first type assertion of a wrapper's method names the type defined there
    (a [QC]), which a wrapper stored in a message does not have. *)
Fixpoint qexec (num : Z) (s : qstmt) (E : qenv) : qout :=
  match s with
  | QSkip => QNext E
  | QSeq a b => match qexec num a E with QNext E' => qexec num b E' | o => o end
  | QIf c a b =>
      match qeval E c with
      | Some (QBool true) => qleave E (qexec num a E)
      | Some (QBool false) => qleave E (qexec num b E)
      | _ => QStuck
      end
  | QWith a b c s =>
      match qeval E a, qeval E b with
      | Some x, Some y =>
          let E' := ("q", y) :: ("p", x) :: E in
          match qeval E' c with
          | Some (QBool true) => qleave E (qexec num s E')
          | Some (QBool false) => QNext E
          | _ => QStuck
          end
      | _, _ => QStuck
      end
  | QRange e s =>
      match qeval E e with
      | Some g => match qitems g with Some l => qloop (qexec num s) l E | None => QStuck end
      | None => QStuck
      end
  | QElem e =>
      match qeval E e, qlookup "i" E with
      | Some g, Some i => match qindex g i with Some y => QNext (("vy", y) :: E) | None => QStuck end
      | _, _ => QStuck
      end
  | QEntry e =>
      match qeval E e, qlookup "i" E with
      | Some g, Some i =>
          match qentry g i with
          | Some (Some y) => QNext (("ok", QBool true) :: ("vy", y) :: E)
          | Some None => QNext (("ok", QBool false) :: ("vy", QNone) :: E)
          | None => QStuck
          end
      | _, _ => QStuck
      end
  | QNew x _ m =>
      match qlookup x E with
      | Some (QV (TMsg m') p _) =>
          if Nat.eqb m m' then
            match qassign x (QV (TMsg m) p (new_msg (md_of sc m))) E with Some E' => QNext E' | None => QStuck end
          else QStuck
      | _ => QStuck
      end
  | QSwitch e s =>
      match qeval E e with
      | Some (QV (TWrap m n) p v) => qleave E (qexec n s (("c", QV (TWrap m n) p v) :: E))
      | Some (QV TNone _ _) => QNext E
      | _ => QStuck
      end
  | QCase n s rest => if n =? num then qexec num s E else qexec num rest E
  | QHas e _ s t =>
      match qeval E e with
      | Some (QV (TMsg m) p v) =>
          if md_foreign (md_of sc m)
          then qleave E (qexec num t (("ok", QBool false) :: ("equal", QNone) :: E))
          else qleave E (qexec num s (("ok", QBool true) :: ("equal", QV (TMsg m) p v) :: E))
      | _ => QStuck
      end
  | QThat n =>
      match qlookup "this" E, qlookup "thatIface" E with
      | Some (QV (TWrap m _) _ _), Some (QV (TWrap m' n') p v) =>
          if Nat.eqb m m' && (n' =? n) then QNext (("ok", QBool true) :: ("that", QV (TWrap m' n') p v) :: E)
          else QNext (("ok", QBool false) :: ("that", QV (TWrap m n) [] VNil) :: E)
      | Some (QC m _ _ _), Some (QC m' n' p v) =>
          if Nat.eqb m m' && (n' =? n) then QNext (("ok", QBool true) :: ("that", QC m' n' p v) :: E)
          else QNext (("ok", QBool false) :: ("that", QC m n [] VNil) :: E)
      | Some (QC m _ _ _), Some (QV (TWrap _ _) _ _) =>
          QNext (("ok", QBool false) :: ("that", QC m n [] VNil) :: E)
      | _, _ => QStuck
      end
  | QOther n s t =>
      match qlookup "thatIface" E with
      | Some (QV (TWrap m n') p v) =>
          if n' =? n then qleave E (qexec num s (("ok", QBool true) :: ("ot", QV (TWrap m n') p v) :: E))
          else qleave E (qexec num t (("ok", QBool false) :: ("ot", QNone) :: E))
      | _ => QStuck
      end
  | QConvert n =>
      match qlookup "ot" E with
      | Some (QV (TWrap m n') p v) =>
          if n' =? n then
            match qassign "that" (QC m n' p v) E with Some E' => QNext E' | None => QStuck end
          else QStuck
      | _ => QStuck
      end
  | QThatMsg =>
      match qlookup "this" E, qlookup "thatMsg" E with
      | Some (QV (TMsg m) _ _), Some (QV (TMsg m') p v) =>
          if Nat.eqb m m' then QNext (("ok", QBool true) :: ("that", QV (TMsg m') p v) :: E)
          else QNext (("ok", QBool false) :: ("that", QNone) :: E)
      | Some (QV (TMsg m) _ _), Some (QV TNone _ _) => QNext (("ok", QBool false) :: ("that", QNone) :: E)
      | _, _ => QStuck
      end
  | QRet e => match qeval E e with Some (QBool b) => QDone b | _ => QStuck end
  end.

(** A method returns on every path. *)
End Sem.
Definition qresult (o : qout) : option bool := match o with QDone b => Some b | _ => None end.
