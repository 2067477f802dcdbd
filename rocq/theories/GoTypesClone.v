(** The static rules of Go for the printed CloneVT and CloneMessageVT: the rules of GoTypes.v and
    GoTypesEqual.v for the syntax of GoClone.v.  A specification of the compiler, not a file of
    /repo. *)
From Coq Require Import ZArith List Bool String Arith.
From Verif Require Import Base Schema Value Typing GoSyntax GenSize GoTypes GoTypesUnmarshal GoEqual GoTypesEqual GoClone.
Import ListNotations.
Open Scope string_scope.
Open Scope Z_scope.
Open Scope list_scope.

Section Check.
Variable sc : schema.
Variable dp : nat -> dispatch.
Variable wrap : bool.
(** The messages with a function FromVTPool. *)
Variable pools : nat -> bool.
Variable self : nat.

(** The result of the method CloneVT of a type. *)
Definition cresult_ty (t : qtyp) : option gtyp :=
  match t with
  | T (YPtr (YMsg a)) => if negb wrap && is_local dp a then Some (YPtr (YMsg a)) else None
  | T (YPtr (YOwn a)) => if GenSize.is_known (dp a) then Some (YPtr (YOwn a)) else None
  | T (YPtr (YWrap a n)) =>
      match find_field n (md_fields (md_of sc a)) with
      | Some f => if negb wrap && is_local dp a && is_oneof f then Some (YOne a (f_slot f)) else None
      | None => None
      end
  | T (YPtr (YOwnWrap a n)) => if GenSize.is_known (dp a) then Some (YPtr (YOwnWrap a n)) else None
  | TClone t => Some t
  | _ => None
  end.

(** May a value of the first type be assigned to the second?  A wrapper has the methods of its oneof's
    interface. *)
Definition cassignable (a b : qtyp) : bool :=
  match a, b with
  | T (YPtr (YWrap m n)), T (YOne m' s) => msg_eqb m m' && implements sc m s n
  | T a, T b => same a b
  | T (YPtr (YMsg _)), TProto => true
  | _, _ => false
  end.

(** The types named T and T_F in the own package. *)
Definition own_ty : gtyp := YPtr (if wrap then YOwn self else YMsg self).
Definition own_in (n : Z) : option qtyp :=
  match in_ty sc self n with Some _ => Some (T (YPtr (if wrap then YOwnWrap self n else YWrap self n))) | None => None end.

(** The type of a struct member of a value. *)
Definition csel (t : qtyp) (f : member) : option gtyp :=
  match t, f with
  | T t, MSlot s => match struct_of t with Some a => slot_ty sc a s | None => None end
  | T (YPtr (YWrap a n')), MIn n | T (YPtr (YOwnWrap a n')), MIn n => if n =? n' then in_ty sc a n else None
  | T (YPtr (YMsg a)), MUnknown => if negb wrap && is_local dp a then Some YBytes else None
  | _, _ => None
  end.

Definition has_len (t : qtyp) : bool := match t with T (YSlice _ | YMap _ _ | YStr) => true | _ => false end.

(** The type of an expression and the variables it reads. *)
Fixpoint cty (G : qctx) (e : cexp) : option (qtyp * list nat) :=
  let un e (f : qtyp -> option qtyp) :=
    match cty G e with Some (t, u) => match f t with Some t' => Some (t', u) | None => None end | None => None end in
  let con (t : option qtyp) := match t with Some t => Some (t, []) | None => None end in
  match e with
  | CVar x => match qvar x G with Some (i, t) => Some (t, [i]) | None => None end
  | CSel e f => un e (fun t => option_map T (csel t f))
  | CStar e => un e (fun t => match t with T (YPtr t) => Some (T t) | _ => None end)
  | CAddr x => match qvar x G with Some (i, T t) => Some (T (YPtr t), [i]) | _ => None end
  | CNilMsg _ | CNew _ => con (Some (T own_ty))
  | CNilIn _ _ n | CNewIn _ _ n => con (own_in n)
  | CPool _ => con (if pools self && negb wrap then Some (T own_ty) else None)
  | CMakeBytes e => un e (fun t => if has_len t then Some (T YBytes) else None)
  | CMake fn t e =>
      un e (fun y => if has_len y then
                       match t with
                       | TField _ k => option_map (fun k => T (YSlice k)) (elem_ty sc self fn k)
                       | TMap kk vk =>
                           match elem_ty sc self fn vk with
                           | Some v => Some (T (YMap (kind_ty kk) v))
                           | None => None
                           end
                       end
                     else None)
  | CCast m e => un e (fun t => match t with T (YPtr (YMsg a)) => if msg_eqb a m && GenSize.is_known (dp m) then Some (T (YPtr (YOwn m))) else None | _ => None end)
  | CUncast fn _ e =>
      un e (fun t => match t, qnamed sc self fn with
                     | T (YPtr (YOwn a)), Some b => if msg_eqb a b then Some (T (YPtr (YMsg b))) else None
                     | _, _ => None
                     end)
  | CCastIn n e =>
      un e (fun t => match t with T (YPtr (YWrap a n')) => if wrap && msg_eqb a self && (n =? n') then Some (T (YPtr (YOwnWrap a n))) else None | _ => None end)
  | CUncastIn n e =>
      un e (fun t => match t with T (YPtr (YOwnWrap a n')) => if msg_eqb a self && (n =? n') then Some (T (YPtr (YWrap a n))) else None | _ => None end)
  | CClone e => un e (fun t => option_map T (cresult_ty t))
  | CIface s e =>
      un e (fun t => match t with T (YOne a s') => if negb wrap && msg_eqb a self && Nat.eqb s s' then Some (TClone (YOne a s)) else None | _ => None end)
  | CProto fn e =>
      un e (fun t => match t, qnamed sc self fn with T (YPtr (YMsg _)), Some b => Some (T (YPtr (YMsg b))) | _, _ => None end)
  end.

(** The type of what is assigned to and the variables read; assigning to a variable does not read
    it. *)
Definition clval (G : qctx) (l : lval) : option (gtyp * list nat) :=
  match l with
  | LVar x => match qvar x G with Some (_, T t) => Some (t, []) | _ => None end
  | LSel x f => match qvar x G with Some (i, t) => match csel t f with Some y => Some (y, [i]) | None => None end | None => None end
  | LAt x =>
      match qvar x G, qvar "k" G with
      | Some (i, T (YSlice t)), Some (j, T YInt) => Some (t, [i; j])
      | Some (i, T (YMap k t)), Some (j, T k') => if same k' k then Some (t, [i; j]) else None
      | _, _ => None
      end
  end.

Fixpoint ccase_nums (s : cstmt) : list Z := match s with CCase n _ rest => n :: ccase_nums rest | _ => [] end.
Definition is_ccase (s : cstmt) : bool := match s with CCase _ _ _ | CSkip => true | _ => false end.
Definition cnilable (t : qtyp) : bool := match t with T t => is_nilable t | _ => true end.

(** The variables after a statement and those it reads; [R]: the result of the function.  In the
    clauses of a type switch its variable, the last one, has the type of the clause. *)
Fixpoint ccheck (R : qtyp) (G : qctx) (s : cstmt) : option (qctx * list nat) :=
  let block G u s :=
    match ccheck R G s with
    | Some (G', v) => match qclose G G' v with Some w => Some (G, u ++ w) | None => None end
    | None => None
    end in
  match s with
  | CSkip => Some (G, [])
  | CSeq a b =>
      match ccheck R G a with
      | Some (G1, u) => match ccheck R G1 b with Some (G2, v) => Some (G2, u ++ v) | None => None end
      | None => None
      end
  | CIfNil e s | CIfSome e s =>
      match cty G e with Some (t, u) => if cnilable t then block G u s else None | None => None end
  | CIfRhs e s =>
      match cty G e with
      | Some (t, u) =>
          (* the condition reads rhs *)
          if cnilable t then
            match block (("rhs", t) :: G) [List.length G] s with
            | Some (G1, v) => match qclose G G1 v with Some w => Some (G, u ++ w) | None => None end
            | None => None
            end
          else None
      | None => None
      end
  | CIfLen e s =>
      match cty G e with Some (t, u) => if has_len t then block G u s else None | None => None end
  | CDef x e => match cty G e with Some (t, u) => Some ((x, t) :: G, u) | None => None end
  | CSet l e =>
      match clval G l, cty G e with
      | Some (t, u), Some (y, v) => if cassignable y (T t) then Some (G, u ++ v) else None
      | _, _ => None
      end
  | CCopy l e =>
      (* here a variable is read *)
      match clval G l, cty G e with
      | Some (YSlice t, u), Some (T (YSlice y), v) =>
          if same t y then Some (G, u ++ v ++ match l with LVar x => match qvar x G with Some (i, _) => [i] | None => [] end | _ => [] end) else None
      | _, _ => None
      end
  | CRange e s =>
      let loop k t u :=
        match block (("v", T t) :: ("k", T k) :: G) [] s with
        | Some (G1, v) => match qclose G G1 v with Some w => Some (G, u ++ w) | None => None end
        | None => None
        end in
      match cty G e with
      | Some (T (YSlice t), u) => loop YInt t u
      | Some (T (YMap k t), u) => loop k t u
      | _ => None
      end
  | CSwitch e s =>
      match cty G e with
      | Some (T (YOne a o), u) =>
          let G1 := ("c", T (YOne a o)) :: G in
          match ccheck R G1 s with
          | Some (G2, v) =>
              if is_ccase s && distinct (ccase_nums s) && Nat.eqb (List.length G2) (List.length G1)
              then match qclose G G1 v with Some w => Some (G, u ++ w) | None => None end else None
          | None => None
          end
      | _ => None
      end
  | CCase n s rest =>
      match G with
      | (x, T (YOne a o)) :: G0 =>
          if String.eqb x "c" && implements sc a o n && is_ccase rest then
            match block (("c", T (YPtr (YWrap a n))) :: G0) [] s, ccheck R G rest with
            | Some (_, u), Some (_, v) => Some (G, u ++ v)
            | _, _ => None
            end
          else None
      | _ => None
      end
  | CHas e fn s t =>
      match cty G e, qnamed sc self fn with
      | Some (_, u), Some a =>
          let G1 := ("ok", T YBool) :: ("vtpb", TClone (YPtr (YMsg a))) :: G in
          match block G1 [] s, block G1 [] t with
          | Some (_, v), Some (_, w) =>
              (* the condition reads ok *)
              match qclose G G1 (S (List.length G) :: v ++ w) with Some x => Some (G, u ++ x) | None => None end
          | _, _ => None
          end
      | _, _ => None
      end
  | CRet e => match cty G e with Some (t, u) => if cassignable t R then Some (G, u) else None | None => None end
  end.

Fixpoint creturns (s : cstmt) : bool :=
  match s with
  | CRet _ => true
  | CSeq a CSkip => creturns a
  | CSeq _ b => creturns b
  | _ => false
  end.

(** The method with these parameters and result is accepted; parameters need not be read. *)
Definition ccompiles (params : qctx) (R : qtyp) (body : cstmt) : bool :=
  match ccheck R params body with
  | Some (G, u) =>
      match qclose [] G (seq 0 (List.length params) ++ u) with Some _ => creturns body | None => false end
  | None => false
  end.
End Check.
