(** The static rules of Go for the printed EqualVT and EqualMessageVT: the rules of GoTypes.v for the
    syntax of GoEqual.v.  A specification of the compiler, not a file of /repo.  Enum types are not
    told apart. *)
From Coq Require Import ZArith List Bool String Arith.
From Verif Require Import Base Schema Value Typing GoSyntax GenSize GoTypes GoEqual.
Import ListNotations.
Open Scope string_scope.
Open Scope Z_scope.
Open Scope list_scope.

(** Types: those of GoTypes.v; any; proto.Message; interface{ EqualVT(t) bool }; and, for
    GoTypesClone.v, interface{ CloneVT() t }. *)
Inductive qtyp : Type := T (t : gtyp) | TAny | TProto | TEqual (t : gtyp) | TClone (t : gtyp).

(** nil has no type of its own. *)
Definition is_ynil (t : qtyp) : bool := match t with T YNil => true | _ => false end.

Definition qctx := list (string * qtyp).
(** The variable a name means, by its number from the outermost one, and its type. *)
Fixpoint qvar (x : string) (G : qctx) : option (nat * qtyp) :=
  match G with
  | [] => None
  | (y, t) :: G' => if String.eqb x y then Some (List.length G', t) else qvar x G'
  end.

Fixpoint qdistinct (l : list string) : bool :=
  match l with [] => true | x :: l' => negb (existsb (String.eqb x) l') && qdistinct l' end.

(** The end of a block that began with the variables [G]: those declared in it have different names
    and have been read. *)
Definition qclose (G G' : qctx) (u : list nat) : option (list nat) :=
  if qdistinct (map fst (firstn (List.length G' - List.length G) G'))
     && forallb (fun i => existsb (Nat.eqb i) u) (seq (List.length G) (List.length G' - List.length G))
  then Some (filter (fun i => Nat.ltb i (List.length G)) u) else None.

Section Check.
Variable sc : schema.
Variable dp : nat -> dispatch.
Variable wrap : bool.
Variable self : nat.

(** The message type named by field [fn] of the message (of a map: that of its values). *)
Definition qnamed (fn : Z) : option nat :=
  match find_field fn (md_fields (md_of sc self)) with
  | Some f => match f_ty f with TField _ (KMessage a | KGroup a) | TMap _ (KMessage a | KGroup a) => Some a | _ => None end
  | None => None
  end.

(** The parameter of the method EqualVT of a type.  Without the option wrap the methods are declared
    on the types of protoc-gen-go, for the messages of the run, and on the types of the packages of
    well-known types; with it on the own types. *)
Definition qparam (t : qtyp) : option qtyp :=
  match t with
  | T (YPtr (YMsg a)) => if negb wrap && is_local dp a then Some t else None
  | T (YPtr (YOwn a)) => if GenSize.is_known (dp a) then Some t else None
  | T (YPtr (YWrap a n)) =>
      match find_field n (md_fields (md_of sc a)) with
      | Some f => if negb wrap && is_local dp a && is_oneof f then Some (T (YOne a (f_slot f))) else None
      | None => None
      end
  | T (YPtr (YOwnWrap a n)) => if GenSize.is_known (dp a) then Some TAny else None
  | TEqual t => Some (T t)
  | _ => None
  end.

(** May a value of the first type be passed for the second? *)
Definition qpasses (a b : qtyp) : bool :=
  match a, b with
  | T a, T b => same a b
  | _, TAny => true
  | _, _ => false
  end.

(** [a == b]: nil has no type of its own. *)
Definition qcomparable (a b : qtyp) : bool :=
  match a, b with
  | T YNil, T YNil => false
  | T YNil, T t | T t, T YNil => is_nilable t
  | T a, T b => same a b && comparable a
  | _, _ => false
  end.

(** The type of an expression and the variables it reads. *)
Fixpoint qty (G : qctx) (e : qexp) : option (qtyp * list nat) :=
  let un e (f : qtyp -> option qtyp) :=
    match qty G e with Some (t, u) => match f t with Some t' => Some (t', u) | None => None end | None => None end in
  let bi a b (ok : qtyp -> qtyp -> bool) :=
    match qty G a, qty G b with
    | Some (s, u), Some (t, v) => if ok s t then Some (T YBool, u ++ v) else None
    | _, _ => None
    end in
  let bools a b := match a, b with T YBool, T YBool => true | _, _ => false end in
  match e with
  | XVar x => match qvar x G with Some (i, t) => Some (t, [i]) | None => None end
  | XNil => Some (T YNil, [])
  | XTrue | XFalse => Some (T YBool, [])
  | XSel e (MSlot s) =>
      un e (fun t => match t with
                     | T t => match struct_of t with Some a => option_map T (slot_ty sc a s) | None => None end
                     | _ => None
                     end)
  | XSel e (MIn n) =>
      un e (fun t => match t with
                     | T (YPtr (YWrap a n')) | T (YPtr (YOwnWrap a n')) => if n =? n' then option_map T (in_ty sc a n) else None
                     | _ => None
                     end)
  | XSel e MUnknown =>
      (* not exported: accessible in the package protoc-gen-go writes to *)
      un e (fun t => match t with T (YPtr (YMsg a)) => if negb wrap && is_local dp a then Some (T YBytes) else None | _ => None end)
  | XStar e => un e (fun t => match t with T (YPtr t) => Some (T t) | _ => None end)
  | XLen e => un e (fun t => match t with T (YSlice _ | YMap _ _ | YStr) => Some (T YInt) | _ => None end)
  | XString e => un e (fun t => match t with T (YSlice YU8) => Some (T YStr) | _ => None end)
  | XEq a b | XNe a b => bi a b qcomparable
  | XAnd a b | XOr a b => bi a b bools
  | XNot a => un a (fun t => match t with T YBool => Some t | _ => None end)
  | XPar a => qty G a
  | XCast m e => un e (fun t => match t with T (YPtr (YMsg a)) => if msg_eqb a m && GenSize.is_known (dp m) then Some (T (YPtr (YOwn m))) else None | _ => None end)
  | XCastIn n e =>
      (* the type is one of the own package *)
      un e (fun t => match t with T (YPtr (YWrap a n')) => if wrap && msg_eqb a self && (n =? n') then Some (T (YPtr (YOwnWrap a n))) else None | _ => None end)
  | XEqual a b =>
      bi a b (fun s t => match qparam s with Some p => qpasses t p | None => false end)
  | XIface s e =>
      (* isT_F is not exported either *)
      un e (fun t => match t with T (YOne a s') => if negb wrap && msg_eqb a self && Nat.eqb s s' then Some (TEqual (YOne a s)) else None | _ => None end)
  | XProto a b => bi a b (fun s t => match s, t with T (YPtr (YMsg _)), T (YPtr (YMsg _)) => true | _, _ => false end)
  end.

(** A condition. *)
Definition qcond (G : qctx) (e : qexp) : option (list nat) :=
  match qty G e with Some (T YBool, u) => Some u | _ => None end.

Fixpoint case_nums (s : qstmt) : list Z := match s with QCase n _ rest => n :: case_nums rest | _ => [] end.
Definition is_case (s : qstmt) : bool := match s with QCase _ _ _ | QSkip => true | _ => false end.
Definition is_if (s : qstmt) : bool := match s with QIf _ _ _ => true | _ => false end.

(** The variables after a statement and those it reads.  Assigning to a variable does not read
    it.  In the clauses of a type switch its variable, the last one, has the type of the clause. *)
Fixpoint qcheck (G : qctx) (s : qstmt) : option (qctx * list nat) :=
  match s with
  | QSkip => Some (G, [])
  | QSeq a b =>
      match qcheck G a with
      | Some (G1, u) => match qcheck G1 b with Some (G2, v) => Some (G2, u ++ v) | None => None end
      | None => None
      end
  | QIf c a b =>
      match qcond G c, qcheck G a, qcheck G b with
      | Some u, Some (G1, v), Some (G2, w) =>
          match qclose G G1 v, qclose G G2 w with Some v', Some w' => Some (G, u ++ v' ++ w') | _, _ => None end
      | _, _, _ => None
      end
  | QWith a b c s =>
      match qty G a, qty G b with
      | Some (ta, u), Some (tb, v) =>
          if is_ynil ta || is_ynil tb then None else
          let G1 := ("q", tb) :: ("p", ta) :: G in
          match qcond G1 c, qcheck G1 s with
          | Some w, Some (G2, x) =>
              match qclose G1 G2 x with
              | Some x' => match qclose G G1 (w ++ x') with Some y => Some (G, u ++ v ++ y) | None => None end
              | None => None
              end
          | _, _ => None
          end
      | _, _ => None
      end
  | QRange e s =>
      let loop k t u :=
        let G1 := ("vx", T t) :: ("i", T k) :: G in
        match qcheck G1 s with
        | Some (G2, v) =>
            match qclose G1 G2 v with
            | Some v' => match qclose G G1 v' with Some w => Some (G, u ++ w) | None => None end
            | None => None
            end
        | None => None
        end in
      match qty G e with
      | Some (T (YSlice t), u) => loop YInt t u
      | Some (T (YMap k t), u) => loop k t u
      | _ => None
      end
  | QElem e =>
      match qty G e, qvar "i" G with
      | Some (T (YSlice t), u), Some (i, T YInt) => Some (("vy", T t) :: G, u ++ [i])
      | _, _ => None
      end
  | QEntry e =>
      match qty G e, qvar "i" G with
      | Some (T (YMap k t), u), Some (i, T k') => if same k' k then Some (("ok", T YBool) :: ("vy", T t) :: G, u ++ [i]) else None
      | _, _ => None
      end
  | QNew x fn _ =>
      match qvar x G, qnamed fn with
      | Some (_, T (YPtr (YMsg a))), Some b => if msg_eqb a b then Some (G, []) else None
      | _, _ => None
      end
  | QSwitch e s =>
      match qty G e with
      | Some (T (YOne a o), u) =>
          let G1 := ("c", T (YOne a o)) :: G in
          match qcheck G1 s with
          | Some (G2, v) =>
              if is_case s && distinct (case_nums s) && Nat.eqb (List.length G2) (List.length G1)
              then match qclose G G1 v with Some w => Some (G, u ++ w) | None => None end else None
          | None => None
          end
      | _ => None
      end
  | QCase n s rest =>
      match G with
      | (x, T (YOne a o)) :: G0 =>
          if String.eqb x "c" && implements sc a o n && is_case rest then
            let G1 := ("c", T (YPtr (YWrap a n))) :: G0 in
            match qcheck G1 s, qcheck G rest with
            | Some (G2, u), Some (_, v) => match qclose G1 G2 u with Some u' => Some (G, u' ++ v) | None => None end
            | _, _ => None
            end
          else None
      | _ => None
      end
  | QHas e fn s t =>
      match qty G e, qnamed fn with
      | Some (te, u), Some a =>
          let G1 := ("ok", T YBool) :: ("equal", TEqual (YPtr (YMsg a))) :: G in
          match qcheck G1 s, qcheck G1 t with
          | Some (G2, v), Some (G3, w) =>
              match qclose G1 G2 v, qclose G1 G3 w with
              | Some v', Some w' =>
                  (* the condition reads ok *)
                  match qclose G G1 (S (List.length G) :: v' ++ w') with
                  | Some x => if is_if t && negb (is_ynil te) then Some (G, u ++ x) else None
                  | None => None
                  end
              | _, _ => None
              end
          | _, _ => None
          end
      | _, _ => None
      end
  | QThat n =>
      match qvar "thatIface" G with
      | Some (i, T (YOne a o)) =>
          (* an assertion to a type that does not have the methods of the interface is rejected *)
          if negb wrap && msg_eqb a self && implements sc a o n then Some (("ok", T YBool) :: ("that", T (YPtr (YWrap a n))) :: G, [i]) else None
      | Some (i, TAny) => if wrap then Some (("ok", T YBool) :: ("that", T (YPtr (YOwnWrap self n))) :: G, [i]) else None
      | _ => None
      end
  | QOther n s t =>
      match qvar "thatIface" G with
      | Some (i, TAny) =>
          let G1 := ("ok", T YBool) :: ("ot", T (YPtr (YWrap self n))) :: G in
          match qcheck G1 s, qcheck G1 t with
          | Some (G2, v), Some (G3, w) =>
              match qclose G1 G2 v, qclose G1 G3 w with
              | Some v', Some w' =>
                  match qclose G G1 (S (List.length G) :: v' ++ w') with Some x => Some (G, i :: x) | None => None end
              | _, _ => None
              end
          | _, _ => None
          end
      | _ => None
      end
  | QConvert n =>
      match qvar "ot" G, qvar "that" G with
      | Some (i, T (YPtr (YWrap a n'))), Some (_, T (YPtr (YOwnWrap b n''))) =>
          if wrap && msg_eqb a self && msg_eqb b self && (n =? n') && (n =? n'') then Some (G, [i]) else None
      | _, _ => None
      end
  | QThatMsg =>
      match qvar "thatMsg" G with
      | Some (i, TProto) => if wrap then None else Some (("ok", T YBool) :: ("that", T (YPtr (YMsg self))) :: G, [i])
      | _ => None
      end
  | QRet e => match qcond G e with Some u => Some (G, u) | None => None end
  end.

(** Statements after which control does not reach the end of the block. *)
Fixpoint qreturns (s : qstmt) : bool :=
  match s with
  | QRet _ => true
  | QSeq a QSkip => qreturns a
  | QSeq _ b => qreturns b
  | QIf _ a b => qreturns a && qreturns b
  | _ => false
  end.

(** The method with these parameters and the result bool is accepted; parameters need not be
    read. *)
Definition qcompiles (params : qctx) (body : qstmt) : bool :=
  match qcheck params body with
  | Some (G, u) =>
      match qclose [] G (seq 0 (List.length params) ++ u) with Some _ => qreturns body | None => false end
  | None => false
  end.
End Check.
