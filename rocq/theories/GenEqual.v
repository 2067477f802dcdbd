(** Model of /repo/features/equal/equal.go as what it is, a program that prints Go code: the
    functions below return the statements the [p.P(...)] calls print. *)
From Coq Require Import ZArith List Bool String.
From Verif Require Import Base Schema Value Helpers Unmarshal Equal GoSyntax GoSem GoEqual GenSize.
Import ListNotations.
Open Scope string_scope.
Open Scope Z_scope.
Open Scope list_scope.

Section Gen.
Variable dp : nat -> dispatch.

(** [if c { return false }] *)
Definition fail_if (c : qexp) : qstmt := QIf c (QRet XFalse) QSkip.
Definition isnil (e : qexp) : qexp := XEq e XNil.
Definition notnil (e : qexp) : qexp := XNe e XNil.
Notation p := (XVar "p").
Notation q := (XVar "q").

(** equal.go:237-245 compareScalar. *)
Definition gen_scalar_eq (l r : qexp) (nullable : bool) : qstmt :=
  if nullable then
    QWith l r (XOr (XPar (XAnd (isnil p) (notnil q)))
                   (XPar (XAnd (notnil p) (XPar (XOr (isnil q) (XNe (XStar p) (XStar q)))))))
      (QRet XFalse)
  else fail_if (XNe l r).

(** equal.go:247-256 compareBytes. *)
Definition gen_bytes_eq (l r : qexp) (nullable : bool) : qstmt :=
  if nullable then
    QWith l r (XOr (XOr (XPar (XAnd (isnil p) (notnil q))) (XPar (XAnd (notnil p) (isnil q))))
                   (XNe (XString p) (XString q)))
      (QRet XFalse)
  else fail_if (XNe (XString l) (XString r)).

(** equal.go:274-292: the call. *)
Definition gen_call (fn : Z) (l r : qexp) (m : nat) : qstmt :=
  match dp m with
  | DKnown => fail_if (XNot (XEqual (XCast m l) (XCast m r)))
  | DLocal => fail_if (XNot (XEqual l r))
  | DOther => QHas l fn (fail_if (XNot (XEqual (XVar "equal") r))) (fail_if (XNot (XProto l r)))
  end.

(** equal.go:258-293 compareCall. *)
Definition gen_msg_eq (fn : Z) (l r : qexp) (m : nat) (nullable : bool) : qstmt :=
  if nullable then gen_call fn l r m
  else QWith l r (XNe p q) (qblock [
         QIf (isnil p) (QNew "p" fn m) QSkip;
         QIf (isnil q) (QNew "q" fn m) QSkip;
         gen_call fn p q m]).

(** equal.go:174-184 and 216-229: the switch on the kind. *)
Definition gen_kind_eq (fn : Z) (l r : qexp) (k : kind) (nullable : bool) : qstmt :=
  match classify k with
  | CByt => gen_bytes_eq l r nullable
  | CMsg m | CGrp m => gen_msg_eq fn l r m nullable
  | _ => gen_scalar_eq l r nullable
  end.

(** equal.go:110: [nullable]; maps and lists are not looked at, equal.go:213. *)
Definition nullable_of (f : fdesc) : bool :=
  match f_ty f with
  | TField _ (KMessage _ | KGroup _) => true
  | TField (LOptional | LRequired) _ => true
  | _ => false
  end.

(** equal.go:190-235 field. *)
Definition gen_field_eq (f : fdesc) : qstmt :=
  let l := XSel (XVar "this") (MSlot (f_slot f)) in
  let r := XSel (XVar "that") (MSlot (f_slot f)) in
  match f_ty f with
  | TMap _ vk =>
      QSeq (fail_if (XNe (XLen l) (XLen r)))
        (QRange l (qblock [QEntry r; fail_if (XNot (XVar "ok"));
                           gen_kind_eq (f_num f) (XVar "vx") (XVar "vy") vk false]))
  | TField (LRepeated _) k =>
      QSeq (fail_if (XNe (XLen l) (XLen r)))
        (QRange l (qblock [QElem r; gen_kind_eq (f_num f) (XVar "vx") (XVar "vy") k false]))
  | TField _ k => gen_kind_eq (f_num f) l r k (nullable_of f)
  end.

(** equal.go:91-98: the cases of the type switch. *)
Fixpoint gen_cases (s : nat) (fs : list fdesc) : qstmt :=
  match fs with
  | [] => QSkip
  | f :: fs' =>
      QCase (f_num f)
        (fail_if (XNot (XEqual (XCastIn (f_num f) (XVar "c")) (XSel (XVar "that") (MSlot s)))))
        (gen_cases s fs')
  end.

(** equal.go:83-104: a oneof.  The cases come in the order of field.Oneof.Fields, which the
    sorting at equal.go:65-67 does not change. *)
Definition gen_oneof_eq (known : bool) (md : mdesc) (s : nat) : qstmt :=
  let l := XSel (XVar "this") (MSlot s) in
  let r := XSel (XVar "that") (MSlot s) in
  QIf (XAnd (isnil l) (notnil r)) (QRet XFalse)
    (QIf (notnil l)
       (QSeq (fail_if (isnil r))
          (if known
           then QSwitch l (gen_cases s (filter (fun f => is_oneof f && Nat.eqb (f_slot f) s) (md_fields md)))
           else fail_if (XNot (XEqual (XIface s l) r))))
       QSkip).

(** p.Wrapper() and p.IsWellKnownType(message) (equal.go:90,116,124,148): the package is one of
    well-known types, generated with wrap=true (/repo/Makefile:38-50). *)
Definition is_known (m : nat) : bool := match dp m with DKnown => true | _ => false end.

(** equal.go:57-121: the body of EqualVT.  The schema says that well-known types keep no unknown
    fields. *)
Definition gen_equal (m : nat) (md : mdesc) : qstmt :=
  let fs := sort_fields (md_fields md) in
  qblock (
    [QIf (XEq (XVar "this") (XVar "that")) (QRet XTrue)
       (QIf (XOr (isnil (XVar "this")) (isnil (XVar "that"))) (QRet XFalse) QSkip)]
    ++ map (gen_oneof_eq (is_known m) md) (oneof_slots [] fs)
    ++ map gen_field_eq (filter (fun f => negb (is_oneof f)) fs)
    ++ [QRet (if md_keep md
              then XEq (XString (XSel (XVar "this") MUnknown)) (XString (XSel (XVar "that") MUnknown))
              else XTrue)]).

(** equal.go:125-131: the body of EqualMessageVT. *)
Definition gen_equal_message : qstmt :=
  qblock [QThatMsg; fail_if (XNot (XVar "ok")); QRet (XEqual (XVar "this") (XVar "that"))].

(** equal.go:153-186: the body of a oneof wrapper's EqualVT. *)
Definition gen_wrapper_eq (known : bool) (f : fdesc) : qstmt :=
  match f_ty f with
  | TField _ k =>
      qblock [
        QThat (f_num f);
        QIf (XNot (XVar "ok"))
          (if known then QOther (f_num f) (QConvert (f_num f)) (QRet XFalse) else QRet XFalse) QSkip;
        QIf (XEq (XVar "this") (XVar "that")) (QRet XTrue) QSkip;
        fail_if (XOr (XAnd (isnil (XVar "this")) (notnil (XVar "that")))
                     (XAnd (notnil (XVar "this")) (isnil (XVar "that"))));
        gen_kind_eq (f_num f) (XSel (XVar "this") (MIn (f_num f))) (XSel (XVar "that") (MIn (f_num f))) k false;
        QRet XTrue]
  | TMap _ _ => QSkip
  end.

(** equal.go:51-141,149-151: the text of all methods of a message called [self]. *)
Definition print_equal (nm : names) (tname : Z -> string) (self : string) (m : nat) (md : mdesc) : string :=
  let pr := print_qstmt nm tname self in
  let known := is_known m in
  ("func(this*" ++ self ++ ")EqualVT(that*" ++ self ++ ")bool{" ++ pr (gen_equal m md) ++ "}"
   ++ (if known then ""
       else "func(this*" ++ self ++ ")EqualMessageVT(thatMsgproto.Message)bool{" ++ pr gen_equal_message ++ "}")
   ++ String.concat "" (map (fun f =>
        "func(this*" ++ n_castin nm (f_num f) ++ ")EqualVT(thatIface"
        ++ (if known then "any" else "is" ++ self ++ "_" ++ n_slot nm (f_slot f))
        ++ ")bool{" ++ pr (gen_wrapper_eq known f) ++ "}")
      (filter is_oneof (sort_fields (md_fields md)))))%string.

(** Running the methods.  [this] and [that]: the operands; [n]: bound on the depth of calls.
    Messages of packages without helpers have no EqualVT method; the methods of a well-known
    type's wrappers belong to the types its package defines. *)
Fixpoint run_EqualVT (sc : schema) (same : list step -> list step -> bool) (n : nat)
  (this that : qval) : option bool :=
  match n with
  | O => None
  | S n' =>
      let wrapper (m : nat) (num : Z) (this that : qval) :=
        match find_field num (md_fields (md_of sc m)) with
        | Some f =>
            qresult (qexec sc same (run_EqualVT sc same n') 0 (gen_wrapper_eq (is_known m) f)
                       [("thatIface", that); ("this", this)])
        | None => None
        end in
      let call (this that : qval) :=
        match this with
        | QV (TWrap m num) _ _ => if is_known m then None else wrapper m num this that
        | QC m num _ _ => if is_known m then wrapper m num this that else None
        | _ => run_EqualVT sc same n' this that
        end in
      match this with
      | QV (TMsg m) _ _ =>
          if md_foreign (md_of sc m) then None
          else qresult (qexec sc same call 0 (gen_equal m (md_of sc m)) [("that", that); ("this", this)])
      | _ => None
      end
  end.

(** EqualMessageVT, equal.go:125-131. *)
Definition run_EqualMessageVT (sc : schema) (same : list step -> list step -> bool) (n : nat)
  (this thatMsg : qval) : option bool :=
  qresult (qexec sc same (run_EqualVT sc same n) 0 gen_equal_message [("thatMsg", thatMsg); ("this", this)]).
End Gen.
