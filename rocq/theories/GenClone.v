(** Model of /repo/features/clone/clone.go as what it is, a program that prints Go code: the
    functions below return the statements the [p.P(...)] calls print. *)
From Coq Require Import ZArith List Bool String.
From Verif Require Import Base Schema Value Helpers Unmarshal Equal GoSyntax GoSem GoEqual GoClone GenSize GenEqual.
Import ListNotations.
Open Scope string_scope.
Open Scope Z_scope.
Open Scope list_scope.

(** clone.go:325-338 isScalar. *)
Definition is_scalar (k : kind) : bool :=
  match classify k with CByt | CMsg _ | CGrp _ => false | _ => true end.

Section Gen.
Variable dp : nat -> dispatch.

(** clone.go:72-98 cloneFieldSingular.  The assignments and direct calls of clone.go:201-213 and
    244-261 have the same text. *)
Definition gen_single (fn : Z) (lhs : lval) (rhs : cexp) (k : kind) : cstmt :=
  match classify k with
  | CMsg m | CGrp m =>
      match dp m with
      | DKnown => CSet lhs (CUncast fn m (CClone (CCast m rhs)))
      | DLocal => CSet lhs (CClone rhs)
      | DOther => CHas rhs fn (CSet lhs (CClone (CVar "vtpb"))) (CSet lhs (CProto fn rhs))
      end
  | CByt => cblock [CDef "tmpBytes" (CMakeBytes rhs); CCopy (LVar "tmpBytes") rhs; CSet lhs (CVar "tmpBytes")]
  | _ => CSet lhs rhs
  end.

(** clone.go:101-152 cloneField, of a field that is not in a oneof or of the member of a
    wrapper; [f] is its struct member. *)
Definition gen_ref (fn : Z) (f : member) (t : ftype) : cstmt :=
  let lhs := LSel "r" f in
  let rhs := CVar "rhs" in
  CIfRhs (CSel (CVar "m") f)
    (match t with
     | TMap _ vk =>
         cblock [CDef "tmpContainer" (CMake fn t rhs);
                 CRange rhs (gen_single fn (LAt "tmpContainer") (CVar "v") vk);
                 CSet lhs (CVar "tmpContainer")]
     | TField (LRepeated _) k =>
         cblock [CDef "tmpContainer" (CMake fn t rhs);
                 (if is_scalar k then CCopy (LVar "tmpContainer") rhs
                  else CRange rhs (gen_single fn (LAt "tmpContainer") (CVar "v") k));
                 CSet lhs (CVar "tmpContainer")]
     | TField _ k =>
         if is_scalar k then cblock [CDef "tmpVal" (CStar rhs); CSet lhs (CAddr "tmpVal")]
         else gen_single fn lhs rhs k
     end).

(** clone.go:59-64: the cases of the type switch. *)
Fixpoint gen_clone_cases (s : nat) (fs : list fdesc) : cstmt :=
  match fs with
  | [] => CSkip
  | f :: fs' =>
      CCase (f_num f)
        (CSet (LSel "r" (MSlot s)) (CUncastIn (f_num f) (CClone (CCastIn (f_num f) (CVar "c")))))
        (gen_clone_cases s fs')
  end.

(** clone.go:52-69 cloneOneofField. *)
Definition gen_clone_oneof (known : bool) (md : mdesc) (s : nat) : cstmt :=
  let rhs := CSel (CVar "m") (MSlot s) in
  CIfSome rhs
    (if known
     then CSwitch rhs (gen_clone_cases s (filter (fun f => is_oneof f && Nat.eqb (f_slot f) s) (md_fields md)))
     else CSet (LSel "r" (MSlot s)) (CClone (CIface s rhs))).

(** clone.go:201-213: fields cloned in the first pass: non-reference fields (clone.go:315-323
    isReference; proto2 files have no [LImplicit] scalars) and singular messages known to have a
    CloneVT method. *)
Definition direct (f : fdesc) : bool :=
  match f_ty f with
  | TField LImplicit k => match classify k with
                          | CByt => false
                          | CMsg m | CGrp m => match dp m with DOther => false | _ => true end
                          | _ => true
                          end
  | TField (LOptional | LRequired) k => match classify k with
                                        | CMsg m | CGrp m => match dp m with DOther => false | _ => true end
                                        | _ => false
                                        end
  | _ => false
  end.

(** clone.go:188-216: the fields left for the second pass; a oneof is represented by its first
    field. *)
Fixpoint ref_fields (seen : list nat) (fs : list fdesc) : list fdesc :=
  match fs with
  | [] => []
  | f :: fs' =>
      if is_oneof f then
        if existsb (Nat.eqb (f_slot f)) seen then ref_fields seen fs'
        else f :: ref_fields (f_slot f :: seen) fs'
      else if direct f then ref_fields seen fs'
      else f :: ref_fields seen fs'
  end.

(** The statement of a field. *)
Definition gen_direct (f : fdesc) : cstmt :=
  match f_ty f with
  | TField _ k => gen_single (f_num f) (LSel "r" (MSlot (f_slot f))) (CSel (CVar "m") (MSlot (f_slot f))) k
  | TMap _ _ => CSkip
  end.
Definition gen_clone_field (known : bool) (md : mdesc) (f : fdesc) : cstmt :=
  if is_oneof f then gen_clone_oneof known md (f_slot f)
  else gen_ref (f_num f) (MSlot (f_slot f)) (f_ty f).

(** clone.go:172-232 body.  The schema says that well-known types keep no unknown fields. *)
Definition gen_clone (m : nat) (md : mdesc) : cstmt :=
  let fs := md_fields md in
  cblock (
    [CIfNil (CVar "m") (CRet (CNilMsg m));
     CDef "r" (if md_pool md then CPool m else CNew m)]
    ++ map gen_direct (filter (fun f => negb (is_oneof f) && direct f) fs)
    ++ map (gen_clone_field (is_known dp m) md) (ref_fields [] fs)
    ++ (if md_keep md
        then [CIfLen (CSel (CVar "m") MUnknown) (cblock [
                CSet (LSel "r" MUnknown) (CMakeBytes (CSel (CVar "m") MUnknown));
                CCopy (LSel "r" MUnknown) (CSel (CVar "m") MUnknown)])]
        else [])
    ++ [CRet (CVar "r")]).

(** clone.go:163-165: the body of CloneMessageVT. *)
Definition gen_clone_message : cstmt := CRet (CClone (CVar "m")).

(** clone.go:234-268 bodyForOneOf. *)
Definition gen_clone_wrapper (known : bool) (m : nat) (f : fdesc) : cstmt :=
  let i := MIn (f_num f) in
  match f_ty f with
  | TField _ k =>
      cblock [
        CIfNil (CVar "m") (CRet (CNilIn known m (f_num f)));
        CDef "r" (CNewIn known m (f_num f));
        (if match classify k with
            | CByt => false
            | CMsg m | CGrp m => match dp m with DOther => false | _ => true end
            | _ => true
            end
         then gen_single (f_num f) (LSel "r" i) (CSel (CVar "m") i) k
         else gen_ref (f_num f) i (f_ty f));
        CRet (CVar "r")]
  | TMap _ _ => CSkip
  end.

(** clone.go:154-170,272-299: the text of all methods of a message called [self]. *)
Definition print_clone (nm : names) (tname : Z -> string) (self : string) (m : nat) (md : mdesc) : string :=
  let pr := print_cstmt nm tname self in
  let known := is_known dp m in
  ("func(m*" ++ self ++ ")CloneVT()*" ++ self ++ "{" ++ pr (gen_clone m md) ++ "}"
   ++ (if known then ""
       else "func(m*" ++ self ++ ")CloneMessageVT()proto.Message{" ++ pr gen_clone_message ++ "}")
   ++ String.concat "" (map (fun f =>
        "func(m*" ++ n_castin nm (f_num f) ++ ")CloneVT()"
        ++ (if known then "*" ++ n_castin nm (f_num f) else "is" ++ self ++ "_" ++ n_slot nm (f_slot f))
        ++ "{" ++ pr (gen_clone_wrapper known m f) ++ "}")
      (filter is_oneof (md_fields md))))%string.

(** Running the methods.  [n]: bound on the depth of calls.  The receiver is a message or wrapper
    at some position of the original.  Messages of packages without helpers have no CloneVT
    method; the methods of a well-known type's wrappers belong to the types its package
    defines. *)
Fixpoint run_CloneVT (sc : schema) (al : list step -> nat -> val) (n : nat) (recv : cval) : option cval :=
  match n with
  | O => None
  | S n' =>
      let wrapper (m : nat) (num : Z) (pos : list step) :=
        match find_field num (md_fields (md_of sc m)) with
        | Some f =>
            fun recv => cresult (cexec sc al (run_CloneVT sc al n') pos 0 (gen_clone_wrapper (is_known dp m) m f) [("m", recv)])
        | None => fun _ => None
        end in
      let call (recv : cval) :=
        match recv with
        | CV (TWrap m num) (Some pos) _ => if is_known dp m then None else wrapper m num pos recv
        | CC m num (Some pos) _ => if is_known dp m then wrapper m num pos recv else None
        | _ => run_CloneVT sc al n' recv
        end in
      match recv with
      | CV (TMsg m) (Some pos) _ =>
          if md_foreign (md_of sc m) then None
          else cresult (cexec sc al call pos 0 (gen_clone m (md_of sc m)) [("m", recv)])
      | _ => None
      end
  end.

(** CloneMessageVT, clone.go:163-165. *)
Definition run_CloneMessageVT (sc : schema) (al : list step -> nat -> val) (n : nat) (recv : cval) : option cval :=
  match recv with
  | CV _ (Some pos) _ => cresult (cexec sc al (run_CloneVT sc al n) pos 0 gen_clone_message [("m", recv)])
  | _ => None
  end.
End Gen.
