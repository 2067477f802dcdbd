(** Syntax and meaning of the Go code printed for ResetVT, ReturnToVTPool and FromVTPool: the
    statements that occur in the methods /repo/features/pool/pool.go prints, their text without
    white space, and what the Go specification says they do.  [Panic] is a run-time panic or a
    program the compiler rejects. *)
From Coq Require Import ZArith List Bool String.
From Verif Require Import Base Schema Value Unmarshal Pool GoSyntax.
Import ListNotations.
Open Scope string_scope.
Open Scope Z_scope.
Open Scope list_scope.

(** What a method is called on, and the methods called. *)
Inductive ptarget : Type :=
| PM                                     (* m, pool.go:90,99 *)
| PElem                                  (* mm, pool.go:61,63 *)
| PField (s : nat)                       (* m.F, pool.go:81 *)
| PIn (s : nat) (num : Z).               (* oneof.F, bound to member s of m, pool.go:73 *)
Inductive pmeth : Type := HResetVT | HReset | HReturn.

(** Statements.  [m]: the message type of the target of a call. *)
Inductive pstmt : Type :=
| PSkip
| PSeq (a b : pstmt)
| PIfSome (a : pstmt)                    (* if m != nil { a }, pool.go:51,98 *)
| PRange (s : nat) (a : pstmt)           (* for _, mm := range m.F { a }, pool.go:59 *)
| PClear (s : nat)                       (* clear(m.F), pool.go:67 *)
| PSave (i : nat) (s : nat)              (* f0 := m.F[:0], pool.go:69,84 *)
| PIfOneof (s : nat) (num : Z) (a : pstmt)(* if oneof, ok := m.O.( *T_F); ok { a }, pool.go:73 *)
| PCall (t : ptarget) (m : nat) (h : pmeth)(* t.ResetVT() *)
| PRestore (s : nat) (i : nat)           (* m.F = f0, pool.go:92 *)
| PPut.                                  (* vtprotoPool_T.Put(m), pool.go:100 *)

Fixpoint pblock (l : list pstmt) : pstmt :=
  match l with
  | [] => PSkip
  | s :: l' => PSeq s (pblock l')
  end.

Definition print_meth (h : pmeth) : string :=
  match h with HResetVT => "ResetVT" | HReset => "Reset" | HReturn => "ReturnToVTPool" end.

Section Print.
Variable nm : names.
Variable self : string.
Definition print_target (t : ptarget) : string :=
  match t with
  | PM => "m"
  | PElem => "mm"
  | PField s => "m." ++ n_slot nm s
  | PIn _ num => "oneof." ++ n_in nm num
  end.
Fixpoint print_pstmt (p : pstmt) : string :=
  match p with
  | PSkip => ""
  | PSeq a b => print_pstmt a ++ print_pstmt b
  | PIfSome a => "ifm!=nil{" ++ print_pstmt a ++ "}"
  | PRange s a => "for_,mm:=rangem." ++ n_slot nm s ++ "{" ++ print_pstmt a ++ "}"
  | PClear s => "clear(m." ++ n_slot nm s ++ ")"
  | PSave i s => "f" ++ itoa (Z.of_nat i) ++ ":=m." ++ n_slot nm s ++ "[:0]"
  | PIfOneof s num a => "ifoneof,ok:=m." ++ n_slot nm s ++ ".(*" ++ n_wrap nm num ++ ");ok{" ++ print_pstmt a ++ "}"
  | PCall t _ h => print_target t ++ "." ++ print_meth h ++ "()"
  | PRestore s i => "m." ++ n_slot nm s ++ "=f" ++ itoa (Z.of_nat i)
  | PPut => "vtprotoPool_" ++ self ++ ".Put(m)"
  end%string.
End Print.

(** The state of a call: the receiver, the element mm points to, the variables f0, f1, ... (a
    slice, with the elements in its storage beyond its length) and the objects put into pools. *)
Record pstate_go : Type := mkP {
  q_m : val;
  q_mm : val;
  q_vars : list (nat * (val * list val));
  q_puts : puts }.

Fixpoint pvar (i : nat) (l : list (nat * (val * list val))) : option (val * list val) :=
  match l with
  | [] => None
  | (j, x) :: l' => if Nat.eqb j i then Some x else pvar i l'
  end.

(** Whether an element of type string or []byte refers to memory. *)
Definition refers (x : val) : bool :=
  match x with
  | VNil => false
  | VStr [] => false
  | _ => true
  end.

Section Sem.
Variable sc : schema.
(** The receiver's type, and the methods ResetVT and ReturnToVTPool of messages: the message
    after the call and the objects put into pools. *)
Variable m : nat.
Variable reset ret : nat -> val -> res unit (val * puts).

(** The static type of a struct member. *)
Definition member_type (s : nat) : option ftype :=
  option_map f_ty (find (fun f => Nat.eqb (f_slot f) s && negb (is_oneof f)) (md_fields (md_of sc m))).

(** x.ResetVT(), x.Reset(), x.ReturnToVTPool() for x of type *T.  protoc-gen-go's Reset starts
    with [*x = T{}] and panics on nil. *)
Definition pcall (h : pmeth) (m' : nat) (x : val) : res unit (val * puts) :=
  match h with
  | HResetVT => reset m' x
  | HReturn => ret m' x
  | HReset => match x with VMsg _ _ _ => Ok (new_msg (md_of sc m'), []) | _ => Panic end
  end.

(** A new message with the storage behind each of its members written out: none.  The assignments
    that follow m.Reset() set it. *)
Definition spread (m' : nat) (x : val) : val :=
  match x with VMsg s u [] => VMsg s u (repeat [] (md_nslots (md_of sc m'))) | _ => x end.

(** Assigning to struct member [s] of the receiver, and to what lies beyond its length. *)
Definition pset (st : pstate_go) (s : nat) (x : val) : pstate_go :=
  match q_m st with
  | VMsg slots u hid => mkP (VMsg (list_set slots s x) u hid) (q_mm st) (q_vars st) (q_puts st)
  | _ => st
  end.
Definition padd (st : pstate_go) (p : puts) : pstate_go := mkP (q_m st) (q_mm st) (q_vars st) (q_puts st ++ p).

(** clear(s): every element becomes the zero value of its type. *)
Definition pcleared (k : kind) (v : val) : val :=
  match v with
  | VList l => VList (map (fun _ => match k with KString => VStr [] | _ => VNil end) l)
  | _ => v
  end.

(** The loop over the elements of a list of pointers; the messages they point to change. *)
Fixpoint pelems (body : pstate_go -> res unit pstate_go) (l : list val) (st : pstate_go) : res unit (list val * pstate_go) :=
  match l with
  | [] => Ok ([], st)
  | x :: l' =>
      do st1 <- body (mkP (q_m st) x (q_vars st) (q_puts st));
      do r <- pelems body l' st1;
      Ok (q_mm st1 :: fst r, snd r)
  end.

Fixpoint pexec (p : pstmt) (st : pstate_go) : res unit pstate_go :=
  match p with
  | PSkip => Ok st
  | PSeq a b => do st1 <- pexec a st; pexec b st1
  | PIfSome a => match q_m st with VMsg _ _ _ => pexec a st | _ => Ok st end
  | PRange s a =>
      match q_m st with
      | VMsg slots _ _ =>
          match slot slots s with
          | VList l => do r <- pelems (pexec a) l st; Ok (pset (snd r) s (VList (fst r)))
          | _ => Ok st
          end
      | _ => Panic
      end
  | PClear s =>
      match q_m st, member_type s with
      | VMsg slots _ _, Some (TField (LRepeated _) k) => Ok (pset st s (pcleared k (slot slots s)))
      | _, _ => Panic
      end
  | PSave i s =>
      (* the storage of a list of messages, strings or byte slices is followed; numbers and
         bytes left in storage are not: append overwrites them *)
      match q_m st, member_type s with
      | VMsg slots _ hid, Some (TField l k) =>
          let v := slot slots s in
          let keep h := Ok (mkP (q_m st) (q_mm st) ((i, (truncate v, h)) :: q_vars st) (q_puts st)) in
          match l, classify k with
          | LRepeated _, (CMsg _ | CGrp _) => keep (vlist v ++ nth s hid [])
          | LRepeated _, (CStr | CByt) => keep (filter refers (vlist v))
          | LRepeated _, _ => keep []
          | (LImplicit | LOptional | LRequired), CByt => keep []
          | _, _ => Panic
          end
      | _, _ => Panic
      end
  | PIfOneof s num a =>
      match q_m st with
      | VMsg slots _ _ =>
          match slot slots s with
          | VOneof n _ => if n =? num then pexec a st else Ok st
          | _ => Ok st
          end
      | _ => Panic
      end
  | PCall PM m' h =>
      do r <- pcall h m' (q_m st);
      Ok (mkP (match h with HReset => spread m' (fst r) | _ => fst r end) (q_mm st) (q_vars st) (q_puts st ++ snd r))
  | PCall PElem m' h =>
      do r <- pcall h m' (q_mm st);
      Ok (mkP (q_m st) (fst r) (q_vars st) (q_puts st ++ snd r))
  | PCall (PField s) m' h =>
      match q_m st with
      | VMsg slots _ _ => do r <- pcall h m' (slot slots s); Ok (padd (pset st s (fst r)) (snd r))
      | _ => Panic
      end
  | PCall (PIn s num) m' h =>
      match q_m st with
      | VMsg slots _ _ =>
          match slot slots s with
          | VOneof n x => do r <- pcall h m' x; Ok (padd (pset st s (VOneof n (fst r))) (snd r))
          | _ => Panic
          end
      | _ => Panic
      end
  | PRestore s i =>
      match q_m st, pvar i (q_vars st) with
      | VMsg slots u hid, Some (v, h) =>
          Ok (mkP (VMsg (list_set slots s v) u (list_set hid s h)) (q_mm st) (q_vars st) (q_puts st))
      | _, _ => Panic
      end
  | PPut => Ok (padd st [(m, q_m st)])
  end.
End Sem.
