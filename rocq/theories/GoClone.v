(** Syntax and meaning of the Go code printed for CloneVT: the statements and expressions that
    occur in the methods /repo/features/clone/clone.go prints, their text without white space,
    and what the Go specification says they do.  [None] / [CStuck] is a run-time panic or a
    program the compiler rejects.  It is also the outcome of a program that stores in the clone
    a reference (a pointer, slice or map that is not nil) found in the original: such a program
    would make the two share memory.  The theorems show that none of this happens. *)
From Coq Require Import ZArith List Bool String.
From Verif Require Import Base Schema Value Helpers Unmarshal Equal GoSyntax GoSem GoEqual.
Import ListNotations.
Open Scope string_scope.
Open Scope Z_scope.
Open Scope list_scope.

(** Expressions.  [fn]: the number of the field whose type is named. *)
Inductive cexp : Type :=
| CVar (x : string)                      (* rhs *)
| CSel (e : cexp) (f : member)           (* m.F, clone.go:113 *)
| CStar (e : cexp)                       (* *rhs, clone.go:146 *)
| CAddr (x : string)                     (* &tmpVal, clone.go:147 *)
| CNilMsg (m : nat)                      (* ( *T)(nil), clone.go:177 *)
| CNilIn (known : bool) (m : nat) (n : Z)(* ( *T_F)(nil), clone.go:239 *)
| CNew (m : nat)                         (* new(T), generatedfile.go:63 *)
| CPool (m : nat)                        (* TFromVTPool(), generatedfile.go:61 *)
| CNewIn (known : bool) (m : nat) (n : Z)(* new(T_F), clone.go:242 *)
| CMakeBytes (e : cexp)                  (* make([]byte, len(e)), clone.go:90,226 *)
| CMake (fn : Z) (t : ftype) (e : cexp)  (* make([]T, len(e)), clone.go:124 *)
| CCast (m : nat) (e : cexp)             (* ( *structpb1.Value)(e), clone.go:77 *)
| CUncast (fn : Z) (m : nat) (e : cexp)  (* ( *structpb.Value)(e), clone.go:77 *)
| CCastIn (n : Z) (e : cexp)             (* ( *Value_NullValue)(c), clone.go:62 *)
| CUncastIn (n : Z) (e : cexp)           (* ( *structpb.Value_NullValue)(e), clone.go:62 *)
| CClone (e : cexp)                      (* e.CloneVT(), clone.go:79 *)
| CIface (s : nat) (e : cexp)            (* e.( interface{ CloneVT() isT_F }), clone.go:66 *)
| CProto (fn : Z) (e : cexp).            (* proto.Clone(e).( *T), clone.go:86 *)

(** What is assigned to. *)
Inductive lval : Type :=
| LVar (x : string)                      (* tmpBytes, clone.go:91 *)
| LSel (x : string) (f : member)         (* r.F, clone.go:112 *)
| LAt (x : string).                      (* tmpContainer[k], clone.go:139 *)

(** Statements.  [CCase]s occur only in the last argument of [CSwitch]. *)
Inductive cstmt : Type :=
| CSkip
| CSeq (a b : cstmt)
| CIfNil (e : cexp) (s : cstmt)          (* if e == nil { s }, clone.go:174,236 *)
| CIfSome (e : cexp) (s : cstmt)         (* if e != nil { s }, clone.go:58 *)
| CIfRhs (e : cexp) (s : cstmt)          (* if rhs := e; rhs != nil { s }, clone.go:117 *)
| CIfLen (e : cexp) (s : cstmt)          (* if len(e) > 0 { s }, clone.go:225 *)
| CDef (x : string) (e : cexp)           (* x := e *)
| CSet (l : lval) (e : cexp)             (* l = e *)
| CCopy (l : lval) (e : cexp)            (* copy(l, e), clone.go:91,128,227 *)
| CRange (e : cexp) (s : cstmt)          (* for k, v := range e { s }, clone.go:138 *)
| CSwitch (e : cexp) (s : cstmt)         (* switch c := e.(type) { s }, clone.go:60 *)
| CCase (n : Z) (s rest : cstmt)         (* case *structpb.Value_NullValue: s, clone.go:62 *)
| CHas (e : cexp) (fn : Z) (s t : cstmt)
    (* if vtpb, ok := interface{}(e).( interface{ CloneVT() *T }); ok { s } else { t }, clone.go:83 *)
| CRet (e : cexp).                       (* return e *)

Fixpoint cblock (l : list cstmt) : cstmt :=
  match l with
  | [] => CSkip
  | s :: l' => CSeq s (cblock l')
  end.

Section Print.
Variable nm : names.
(** The Go name of the message or enum type of a field (p.QualifiedGoIdent), and of the message. *)
Variable tname : Z -> string.
Variable self : string.

Local Open Scope string_scope.
(** /repo/generator/generatedfile.go:67-108 FieldGoType. *)
Definition print_elem (fn : Z) (k : kind) : string :=
  match k with
  | KDouble => "float64" | KFloat => "float32"
  | KInt64 | KSint64 | KSfixed64 => "int64"
  | KUint64 | KFixed64 => "uint64"
  | KInt32 | KSint32 | KSfixed32 => "int32"
  | KUint32 | KFixed32 => "uint32"
  | KBool => "bool" | KString => "string" | KBytes => "[]byte"
  | KEnum => tname fn
  | KMessage _ | KGroup _ => "*" ++ tname fn
  end.
Definition print_type (fn : Z) (t : ftype) : string :=
  match t with
  | TMap kk vk => "map[" ++ print_elem fn kk ++ "]" ++ print_elem fn vk
  | TField _ k => "[]" ++ print_elem fn k
  end.
Definition print_member (f : member) : string :=
  match f with MSlot s => n_slot nm s | MIn n => n_in nm n | MUnknown => "unknownFields" end.

Fixpoint print_cexp (e : cexp) : string :=
  match e with
  | CVar x => x
  | CSel e f => print_cexp e ++ "." ++ print_member f
  | CStar e => "*" ++ print_cexp e
  | CAddr x => "&" ++ x
  | CNilMsg _ => "(*" ++ self ++ ")(nil)"
  | CNilIn _ _ n => "(*" ++ n_castin nm n ++ ")(nil)"
  | CNew _ => "new(" ++ self ++ ")"
  | CPool _ => self ++ "FromVTPool()"
  | CNewIn _ _ n => "new(" ++ n_castin nm n ++ ")"
  | CMakeBytes e => "make([]byte,len(" ++ print_cexp e ++ "))"
  | CMake fn t e => "make(" ++ print_type fn t ++ ",len(" ++ print_cexp e ++ "))"
  | CCast m e => "(*" ++ n_cast nm m ++ ")(" ++ print_cexp e ++ ")"
  | CUncast fn _ e => "(*" ++ tname fn ++ ")(" ++ print_cexp e ++ ")"
  | CCastIn n e => "(*" ++ n_castin nm n ++ ")(" ++ print_cexp e ++ ")"
  | CUncastIn n e => "(*" ++ n_wrap nm n ++ ")(" ++ print_cexp e ++ ")"
  | CClone e => print_cexp e ++ ".CloneVT()"
  | CIface s e => print_cexp e ++ ".(interface{CloneVT()is" ++ self ++ "_" ++ n_slot nm s ++ "})"
  | CProto fn e => "proto.Clone(" ++ print_cexp e ++ ").(*" ++ tname fn ++ ")"
  end.

Definition print_lval (l : lval) : string :=
  match l with
  | LVar x => x
  | LSel x f => x ++ "." ++ print_member f
  | LAt x => x ++ "[k]"
  end.

Fixpoint print_cstmt (s : cstmt) : string :=
  match s with
  | CSkip => ""
  | CSeq a b => print_cstmt a ++ print_cstmt b
  | CIfNil e s => "if" ++ print_cexp e ++ "==nil{" ++ print_cstmt s ++ "}"
  | CIfSome e s => "if" ++ print_cexp e ++ "!=nil{" ++ print_cstmt s ++ "}"
  | CIfRhs e s => "ifrhs:=" ++ print_cexp e ++ ";rhs!=nil{" ++ print_cstmt s ++ "}"
  | CIfLen e s => "iflen(" ++ print_cexp e ++ ")>0{" ++ print_cstmt s ++ "}"
  | CDef x e => x ++ ":=" ++ print_cexp e
  | CSet l e => print_lval l ++ "=" ++ print_cexp e
  | CCopy l e => "copy(" ++ print_lval l ++ "," ++ print_cexp e ++ ")"
  | CRange e s => "fork,v:=range" ++ print_cexp e ++ "{" ++ print_cstmt s ++ "}"
  | CSwitch e s => "switchc:=" ++ print_cexp e ++ ".(type){" ++ print_cstmt s ++ "}"
  | CCase n s rest => "case*" ++ n_wrap nm n ++ ":" ++ print_cstmt s ++ print_cstmt rest
  | CHas e fn s t =>
      "ifvtpb,ok:=interface{}(" ++ print_cexp e ++ ").(interface{CloneVT()*" ++ tname fn ++ "});ok{"
      ++ print_cstmt s ++ "}else{" ++ print_cstmt t ++ "}"
  | CRet e => "return" ++ print_cexp e
  end.
End Print.

(** Values.  [own]: [Some pos] for what is found at position [pos] of the message the outermost
    call clones, [None] for what the calls have made.  [CC] is a pointer to a oneof wrapper
    converted to the type a package of well-known types defines for it. *)
Inductive cval : Type :=
| CV (t : gtype) (own : option (list step)) (v : val)
| CC (m : nat) (num : Z) (own : option (list step)) (v : val)
| CInt (i : nat).

Definition cenv := list (string * cval).
Fixpoint clookup (x : string) (E : cenv) : option cval :=
  match E with
  | [] => None
  | (y, g) :: E' => if String.eqb x y then Some g else clookup x E'
  end.
Fixpoint cassign (x : string) (g : cval) (E : cenv) : option cenv :=
  match E with
  | [] => None
  | (y, h) :: E' =>
      if String.eqb x y then Some ((y, g) :: E')
      else match cassign x g E' with Some E'' => Some ((y, h) :: E'') | None => None end
  end.

(** Types are compared where Go requires identical types. *)
Definition gtype_dec : forall a b : gtype, {a = b} + {a <> b}.
Proof. repeat decide equality. Defined.
Definition same_type (a b : gtype) : bool := if gtype_dec a b then true else false.

(** Can storing a value of this type found in the original make the clone share memory with it?
    Numbers and strings are copied (strings are immutable); nil refers to nothing. *)
Definition fresh (t : gtype) (own : option (list step)) (v : val) : bool :=
  match own, t with
  | None, _ => true
  | Some _, TKind KBytes => is_nil v
  | Some _, TKind _ => true
  | Some _, _ => is_nil v
  end.

(** The zero value of a Go type (Value.v, [zero_of]). *)
Definition zero_kind (k : kind) : val := zero_of (TField LImplicit k).

(** The first elements of [d] replaced by those of [s]: [copy] copies as many elements as the
    shorter slice has. *)
Definition overwrite {A} (d s : list A) : list A := firstn (List.length d) s ++ skipn (List.length s) d.

Section Sem.
Variable sc : schema.
(** The object TFromVTPool() returns in the method called on the message at a position. *)
Variable al : list step -> nat -> val.
(** The CloneVT methods of the values one call further down. *)
Variable call : cval -> option cval.
(** The position of the message or wrapper this method is called on. *)
Variable here : list step.

(** [x.F]; positions as in GoEqual.v. *)
Definition cselect (g : cval) (f : member) : option cval :=
  match g, f with
  | CV (TMsg m) own (VMsg slots unk _), MSlot s =>
      match find (fun f => Nat.eqb (f_slot f) s) (md_fields (md_of sc m)) with
      | Some f =>
          if is_oneof f then
            match slot slots s with
            | VOneof num x => Some (CV (TWrap m num) (option_map (cons (SWrap s)) own) (VOneof num x))
            | VNil => Some (CV TNone (option_map (cons (SWrap s)) own) VNil)
            | _ => None
            end
          else Some (CV (field_type (f_ty f)) (option_map (cons (SField s)) own) (slot slots s))
      | None => None
      end
  | CV (TMsg m) own (VMsg slots unk _), MUnknown => Some (CV (TKind KBytes) own (VBytes unk))
  | CV (TWrap m num) own (VOneof num' x), MIn n | CC m num own (VOneof num' x), MIn n =>
      if (n =? num) && (num =? num') then
        match find_field num (md_fields (md_of sc m)) with
        | Some f =>
            match f_ty f with
            | TField _ k => Some (CV (kind_type k) (option_map in_pos own) x)
            | TMap _ _ => None
            end
        | None => None
        end
      else None
  | _, _ => None
  end.

(** [len(x)] *)
Definition clen (g : cval) : option nat :=
  match g with
  | CV (TSlice _) _ (VList l) => Some (List.length l)
  | CV (TMapOf _ _) _ (VMap l) => Some (List.length l)
  | CV (TKind KBytes) _ (VBytes s | VRefB _ s) => Some (List.length s)
  | CV (TSlice _ | TMapOf _ _ | TKind KBytes) _ VNil => Some 0%nat
  | _ => None
  end.

(** [x == nil], of types that have nil *)
Definition cnil (g : cval) : option bool :=
  match g with
  | CV (TKind KBytes | TPtr _ | TSlice _ | TMapOf _ _ | TMsg _ | TWrap _ _ | TNone) _ v => Some (is_nil v)
  | CC _ _ _ v => Some (is_nil v)
  | _ => None
  end.

Definition wrap_val (known : bool) (m : nat) (n : Z) (v : val) : cval :=
  if known then CC m n None v else CV (TWrap m n) None v.

Fixpoint ceval (E : cenv) (e : cexp) : option cval :=
  match e with
  | CVar x => clookup x E
  | CSel e f => match ceval E e with Some g => cselect g f | None => None end
  | CStar e => match ceval E e with Some (CV (TPtr k) own (VPtr v)) => Some (CV (TKind k) own v) | _ => None end
  | CAddr x => match clookup x E with Some (CV (TKind k) _ v) => Some (CV (TPtr k) None (VPtr v)) | _ => None end
  | CNilMsg m => Some (CV (TMsg m) None VNil)
  | CNilIn known m n => Some (wrap_val known m n VNil)
  | CNew m => Some (CV (TMsg m) None (new_msg (md_of sc m)))
  | CPool m => Some (CV (TMsg m) None (al here m))
  | CNewIn known m n =>
      match find_field n (md_fields (md_of sc m)) with
      | Some f => match f_ty f with
                  | TField _ k => Some (wrap_val known m n (VOneof n (zero_kind k)))
                  | TMap _ _ => None
                  end
      | None => None
      end
  | CMakeBytes e =>
      match ceval E e with
      | Some g => match clen g with Some n => Some (CV (TKind KBytes) None (VBytes (repeat 0 n))) | None => None end
      | None => None
      end
  | CMake _ t e =>
      match ceval E e with
      | Some g =>
          match clen g, t with
          | Some n, TField (LRepeated _) k => Some (CV (TSlice k) None (VList (repeat (zero_kind k) n)))
          | Some n, TMap kk vk => Some (CV (TMapOf kk vk) None (VMap []))
          | _, _ => None
          end
      | None => None
      end
  | CCast m e | CUncast _ m e =>
      match ceval E e with
      | Some (CV (TMsg m') own v) => if Nat.eqb m m' then Some (CV (TMsg m) own v) else None
      | _ => None
      end
  | CCastIn n e =>
      match ceval E e with
      | Some (CV (TWrap m n') own v) => if n =? n' then Some (CC m n own v) else None
      | _ => None
      end
  | CUncastIn n e =>
      match ceval E e with
      | Some (CC m n' own v) => if n =? n' then Some (CV (TWrap m n) own v) else None
      | _ => None
      end
  | CClone e => match ceval E e with Some g => call g | None => None end
  | CIface _ e => match ceval E e with Some (CV (TWrap m n) own v) => Some (CV (TWrap m n) own v) | _ => None end
  | CProto _ e =>
      match ceval E e with
      | Some (CV (TMsg m) _ v) => Some (CV (TMsg m) None (up_clone (sc_up sc) m v))
      | _ => None
      end
  end.

(** [x.F = g]: [x] must be made by this call, [g] must not share memory with the original.  A
    list stored in a message has no spare capacity. *)
Definition cput (x : cval) (f : member) (g : cval) : option cval :=
  match g with
  | CV t own v =>
      if fresh t own v then
        match x, f with
        | CV (TMsg m) None (VMsg r u h), MSlot s =>
            match find (fun f => Nat.eqb (f_slot f) s) (md_fields (md_of sc m)) with
            | Some f =>
                if is_oneof f then
                  match t with
                  | TWrap m' num => if Nat.eqb m m' then Some (CV (TMsg m) None (VMsg (list_set r s v) u h)) else None
                  | _ => None
                  end
                else if same_type t (field_type (f_ty f)) then
                  Some (CV (TMsg m) None (VMsg (list_set r s v) u (match t with TSlice _ => list_set h s [] | _ => h end)))
                else None
            | None => None
            end
        | CV (TMsg m) None (VMsg r u h), MUnknown =>
            match t, v with
            | TKind KBytes, VBytes b => Some (CV (TMsg m) None (VMsg r b h))
            | _, _ => None
            end
        | CV (TWrap m num) None (VOneof num' _), MIn n | CC m num None (VOneof num' _), MIn n =>
            if (n =? num) && (num =? num') then
              match find_field num (md_fields (md_of sc m)) with
              | Some f =>
                  match f_ty f with
                  | TField _ k =>
                      if same_type t (kind_type k) then
                        Some (match x with CC _ _ _ _ => CC m num None (VOneof num v) | _ => CV (TWrap m num) None (VOneof num v) end)
                      else None
                  | TMap _ _ => None
                  end
              | None => None
              end
            else None
        | _, _ => None
        end
      else None
  | _ => None
  end.

(** [x[k] = g]: panics if the index is out of range. *)
Definition cput_at (x k g : cval) : option cval :=
  match g with
  | CV t own v =>
      if fresh t own v then
        match x, k with
        | CV (TSlice e) None (VList l), CInt i =>
            if same_type t (kind_type e) && Nat.ltb i (List.length l) then Some (CV (TSlice e) None (VList (list_set l i v))) else None
        | CV (TMapOf kk vk) None (VMap l), CV (TKind kk') _ key =>
            if same_type t (kind_type vk) && same_type (TKind kk') (TKind kk) then Some (CV (TMapOf kk vk) None (VMap (map_set l key v))) else None
        | _, _ => None
        end
      else None
  | _ => None
  end.

(** [copy(x, g)]: the elements copied must not be references. *)
Definition ccopy (x g : cval) : option cval :=
  match x, g with
  | CV (TKind KBytes) None (VBytes d), CV (TKind KBytes) _ (VBytes s | VRefB _ s) => Some (CV (TKind KBytes) None (VBytes (overwrite d s)))
  | CV (TKind KBytes) None (VBytes d), CV (TKind KBytes) _ VNil => Some x
  | CV (TSlice e) None (VList d), CV (TSlice e') own s =>
      if same_type (TSlice e) (TSlice e') && forallb (fresh (kind_type e) own) (vlist s)
      then Some (CV (TSlice e) None (VList (overwrite d (vlist s)))) else None
  | _, _ => None
  end.

(** What a statement does: go on, return a value, or fail. *)
Inductive cout : Type := CNext (E : cenv) | CDone (g : cval) | CStuck.

(** The end of a block: the variables declared in it are gone. *)
Definition cleave (E : cenv) (o : cout) : cout :=
  match o with CNext E' => CNext (skipn (List.length E' - List.length E) E') | _ => o end.

(** What a range clause goes through: index or key, and value.  Go leaves the order in which a
    map is gone through open; here it is that of the list that represents the map. *)
Fixpoint citems_at (k : kind) (own : option (list step)) (i : nat) (l : list val) : list (cval * cval) :=
  match l with
  | [] => []
  | x :: l' => (CInt i, CV (kind_type k) (option_map (fun p => elem_pos p i) own) x) :: citems_at k own (S i) l'
  end.
Definition citems (g : cval) : option (list (cval * cval)) :=
  match g with
  | CV (TSlice k) own (VList l) => Some (citems_at k own 0 l)
  | CV (TMapOf kk vk) own (VMap l) =>
      Some (map (fun e => (CV (kind_type kk) None (fst e), CV (kind_type vk) (option_map (fun p => entry_pos p (fst e)) own) (snd e))) l)
  | CV (TSlice _ | TMapOf _ _) _ VNil => Some []
  | _ => None
  end.
Fixpoint cloop (body : cenv -> cout) (l : list (cval * cval)) (E : cenv) : cout :=
  match l with
  | [] => CNext E
  | (a, b) :: l' =>
      match cleave E (body (("v", b) :: ("k", a) :: E)) with
      | CNext E' => cloop body l' E'
      | o => o
      end
  end.

Definition cnext (o : option cenv) : cout := match o with Some E => CNext E | None => CStuck end.
(** Reading and writing what is assigned to. *)
Definition cwrite (l : lval) (g : cval) (E : cenv) : option cenv :=
  match l with
  | LVar x => cassign x g E
  | LSel x f =>
      match clookup x E with
      | Some o => match cput o f g with Some o' => cassign x o' E | None => None end
      | None => None
      end
  | LAt x =>
      match clookup x E, clookup "k" E with
      | Some o, Some k => match cput_at o k g with Some o' => cassign x o' E | None => None end
      | _, _ => None
      end
  end.
Definition cread (l : lval) (E : cenv) : option cval :=
  match l with
  | LVar x => clookup x E
  | LSel x f => match clookup x E with Some o => cselect o f | None => None end
  | LAt _ => None
  end.

(** [num]: the dynamic type of the operand of the enclosing type switch. *)
Fixpoint cexec (num : Z) (s : cstmt) (E : cenv) : cout :=
  match s with
  | CSkip => CNext E
  | CSeq a b => match cexec num a E with CNext E' => cexec num b E' | o => o end
  | CIfNil e s =>
      match ceval E e with
      | Some g => match cnil g with
                  | Some true => cleave E (cexec num s E)
                  | Some false => CNext E
                  | None => CStuck
                  end
      | None => CStuck
      end
  | CIfSome e s =>
      match ceval E e with
      | Some g => match cnil g with
                  | Some false => cleave E (cexec num s E)
                  | Some true => CNext E
                  | None => CStuck
                  end
      | None => CStuck
      end
  | CIfRhs e s =>
      match ceval E e with
      | Some g => match cnil g with
                  | Some false => cleave E (cexec num s (("rhs", g) :: E))
                  | Some true => CNext E
                  | None => CStuck
                  end
      | None => CStuck
      end
  | CIfLen e s =>
      match ceval E e with
      | Some g => match clen g with
                  | Some (S _) => cleave E (cexec num s E)
                  | Some O => CNext E
                  | None => CStuck
                  end
      | None => CStuck
      end
  | CDef x e => match ceval E e with Some g => CNext ((x, g) :: E) | None => CStuck end
  | CSet l e => match ceval E e with Some g => cnext (cwrite l g E) | None => CStuck end
  | CCopy l e =>
      match ceval E e, cread l E with
      | Some g, Some o => match ccopy o g with Some o' => cnext (cwrite l o' E) | None => CStuck end
      | _, _ => CStuck
      end
  | CRange e s =>
      match ceval E e with
      | Some g => match citems g with Some l => cloop (cexec num s) l E | None => CStuck end
      | None => CStuck
      end
  | CSwitch e s =>
      match ceval E e with
      | Some (CV (TWrap m n) own v) => cleave E (cexec n s (("c", CV (TWrap m n) own v) :: E))
      | Some (CV TNone _ _) => CNext E
      | _ => CStuck
      end
  | CCase n s rest => if n =? num then cexec num s E else cexec num rest E
  | CHas e _ s t =>
      match ceval E e with
      | Some (CV (TMsg m) own v) =>
          if md_foreign (md_of sc m)
          then cleave E (cexec num t (("vtpb", CV TNone None VNil) :: E))
          else cleave E (cexec num s (("vtpb", CV (TMsg m) own v) :: E))
      | _ => CStuck
      end
  | CRet e => match ceval E e with Some g => CDone g | None => CStuck end
  end.

(** The value a method returns. *)
Definition cresult (o : cout) : option cval := match o with CDone g => Some g | _ => None end.
End Sem.
