(** The static rules of Go for the printed ResetVT and ReturnToVTPool: the rules of GoTypes.v for
    the syntax of GoPool.v.  A specification of the compiler, not a file of /repo.  The variables
    f0, f1, ... are told apart by their number; a name may not be declared again even in an inner
    block, so these rules accept less than the compiler. *)
From Coq Require Import ZArith List Bool String Arith.
From Verif Require Import Base Schema Value Typing GoSyntax GoPool GoTypes.
Import ListNotations.
Open Scope string_scope.
Open Scope Z_scope.
Open Scope list_scope.

(** The variables that can be read. *)
Inductive pname : Type := NElem | NOneof | NSaved (i : nat).
Definition pname_eqb (a b : pname) : bool :=
  match a, b with
  | NElem, NElem | NOneof, NOneof => true
  | NSaved i, NSaved j => Nat.eqb i j
  | _, _ => false
  end.

Fixpoint psaved (i : nat) (V : list (nat * gtyp)) : option gtyp :=
  match V with
  | [] => None
  | (j, t) :: V' => if Nat.eqb i j then Some t else psaved i V'
  end.

Section Check.
Variable sc : schema.
(** The messages for which a pool, ResetVT and ReturnToVTPool are declared. *)
Variable pools : nat -> bool.
Variable self : nat.
(** The type of the receiver m. *)
Variable r : gtyp.

Definition pmember (s : nat) : option gtyp :=
  match struct_of r with Some a => slot_ty sc a s | None => None end.

(** The type of what a method is called on; [mm], [oneof]: the variables in scope. *)
Definition ptarget_ty (mm oneof : option gtyp) (t : ptarget) : option gtyp :=
  match t with
  | PM => Some r
  | PElem => mm
  | PField s => pmember s
  | PIn _ num =>
      match oneof with
      | Some (YPtr (YWrap a n)) => if n =? num then in_ty sc a num else None
      | _ => None
      end
  end.
Definition ptarget_use (t : ptarget) : list pname :=
  match t with PElem => [NElem] | PIn _ _ => [NOneof] | _ => [] end.

(** The methods of messages: Reset is protoc-gen-go's.  Types declared with another message type as
    underlying type (option wrap) do not inherit it. *)
Definition phas (t : gtyp) (h : pmeth) (a : nat) : bool :=
  match t, h with
  | YPtr (YMsg b), HReset => msg_eqb a b
  | YPtr (YMsg b), (HResetVT | HReturn) => msg_eqb a b && pools b
  | _, _ => false
  end.

Definition pread (x : pname) (u : list pname) : bool := existsb (pname_eqb x) u.

(** The variables after a statement (the last one first) and those it reads. *)
Fixpoint pcheck (mm oneof : option gtyp) (V : list (nat * gtyp)) (s : pstmt) : option (list (nat * gtyp) * list pname) :=
  match s with
  | PSkip => Some (V, [])
  | PSeq a b =>
      match pcheck mm oneof V a with
      | Some (V1, u) => match pcheck mm oneof V1 b with Some (V2, v) => Some (V2, u ++ v) | None => None end
      | None => None
      end
  | PIfSome a =>
      match pcheck mm oneof V a with
      | Some (V1, u) =>
          (* the variables declared in the block are read *)
          if is_nilable r && forallb (fun x => pread (NSaved (fst x)) u) (firstn (List.length V1 - List.length V) V1)
          then Some (V, u) else None
      | None => None
      end
  | PRange s a =>
      match pmember s with
      | Some (YSlice t) =>
          match pcheck (Some t) oneof V a with
          | Some (V1, u) => if Nat.eqb (List.length V1) (List.length V) && pread NElem u then Some (V, u) else None
          | None => None
          end
      | _ => None
      end
  | PClear s => match pmember s with Some (YSlice _ | YMap _ _) => Some (V, []) | _ => None end
  | PSave i s =>
      match pmember s, psaved i V with
      | Some (YSlice t), None => Some ((i, YSlice t) :: V, [])
      | _, _ => None
      end
  | PIfOneof s num a =>
      match pmember s with
      | Some (YOne c s') =>
          if implements sc c s' num then
            match pcheck mm (Some (YPtr (YWrap c num))) V a with
            | Some (V1, u) => if Nat.eqb (List.length V1) (List.length V) && pread NOneof u then Some (V, u) else None
            | None => None
            end
          else None
      | _ => None
      end
  | PCall t a h =>
      match ptarget_ty mm oneof t with
      | Some y => if phas y h a then Some (V, ptarget_use t) else None
      | None => None
      end
  | PRestore s i =>
      match pmember s, psaved i V with
      | Some t, Some t' => if assignable t' t then Some (V, [NSaved i]) else None
      | _, _ => None
      end
  | PPut => if pools self then Some (V, []) else None
  end.

(** The method is accepted; it has no result. *)
Definition pcompiles (body : pstmt) : bool :=
  match pcheck None None [] body with
  | Some (V, u) => forallb (fun x => pread (NSaved (fst x)) u) V
  | None => false
  end.
End Check.
