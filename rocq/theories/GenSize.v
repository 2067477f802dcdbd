(** Model of /repo/features/size/size.go as what it is, a program that prints Go
    code: the functions below return the statements the [p.P(...)] calls print. *)
From Coq Require Import ZArith List Bool String.
From Verif Require Import Base Schema Value Helpers GoSyntax GoSem.
Import ListNotations.
Open Scope string_scope.
Open Scope Z_scope.

(** How a method of message type [m] is called (size.go:43-58): IsWellKnownType,
    IsLocalMessage, or neither (/repo/generator/generatedfile.go:110-116,173-179). *)
Inductive dispatch : Type := DKnown | DLocal | DOther.

Section Gen.
Variable dp : nat -> dispatch.

(** size.go:42-59 messageSize. *)
Definition gen_messageSize (e : expr) (m : nat) : stmt :=
  match dp m with
  | DKnown => SSet "l" (EMeth (ECast m e) "SizeVT")
  | DLocal => SSet "l" (EMeth e "SizeVT")
  | DOther =>
      SAssert "size" true e "SizeVT"
        (SSet "l" (EMeth (EVar "size") "SizeVT"))
        (SSet "l" (EProto "Size" e))
  end.

(** [protohelpers.SizeOfVarint(uint64(e))] and the same for SizeOfZigzag. *)
Definition sov (e : expr) : expr := EHelper "SizeOfVarint" (EU64 e).
Definition soz (e : expr) : expr := EHelper "SizeOfZigzag" (EU64 e).

(** [key+l+SizeOfVarint(uint64(l))], size.go:137 and elsewhere. *)
Definition key_l (key : Z) : expr := EAdd (EAdd (EInt key) (EVar "l")) (sov (EVar "l")).

(** size.go:210-218: the terms of a sum. *)
Definition sum_terms (t : expr) (l : list expr) : expr := fold_left EAdd l t.

(** size.go:168-181: what the key of a map entry contributes to the sum. *)
Definition gen_map_key (kk : kind) : list expr :=
  match classify kk with
  | CFix64 => [EInt 8]
  | CFix32 => [EInt 4]
  | CVar => [sov (EVar "k")]
  | CBool => [EInt 1]
  | CStr | CByt => [ELen (EVar "k"); sov (ELen (EVar "k"))]
  | CZig => [soz (EVar "k")]
  | CMsg _ | CGrp _ => []
  end.

(** size.go:183-209: the statements before the sum, and what the value of a map
    entry contributes to it. *)
Definition gen_map_val (vk : kind) : list stmt * list expr :=
  let valueKeySize := KeySize 2 (ProtoWireType vk) in
  match classify vk with
  | CFix64 => ([], [EInt valueKeySize; EInt 8])
  | CFix32 => ([], [EInt valueKeySize; EInt 4])
  | CVar => ([], [EInt valueKeySize; sov (EVar "v")])
  | CBool => ([], [EInt valueKeySize; EInt 1])
  | CStr => ([], [EInt valueKeySize; ELen (EVar "v"); sov (ELen (EVar "v"))])
  | CByt =>
      ([SSet "l" (EAdd (EAdd (EInt valueKeySize) (ELen (EVar "v"))) (sov (ELen (EVar "v"))))],
       [EVar "l"])
  | CZig => ([], [EInt valueKeySize; soz (EVar "v")])
  | CMsg m =>
      ([SSet "l" (EInt 0);
        SIf (ENe (EVar "v") ENil) (gen_messageSize (EVar "v") m) SSkip;
        SAddTo "l" (EAdd (EInt valueKeySize) (sov (EVar "l")))],
       [EVar "l"])
  | CGrp _ => ([], [])
  end.

(** size.go:156-221: the loop over a map. *)
Definition gen_map (fe : expr) (num : Z) (kk vk : kind) : stmt :=
  let fieldKeySize := KeySize num 2 in
  let keyKeySize := KeySize 1 (ProtoWireType kk) in
  let v := gen_map_val vk in
  SRange "k" "v" fe (block (
    [SBlank "k"; SBlank "v"] ++ fst v ++
    [SDef "mapEntrySize" (sum_terms (EInt keyKeySize) (gen_map_key kk ++ snd v));
     SAddTo "n" (EAdd (EAdd (EVar "mapEntrySize") (EInt fieldKeySize)) (sov (EVar "mapEntrySize")))])).

(** The five cases of the switch for scalar kinds, size.go:77-153, 230-266:
    [packed], [repeated], [nullable], neither nullable nor in a oneof, else. *)
Inductive shape : Type := ShPacked | ShRepeated | ShNullable | ShPlain | ShOneof.

(** size.go:76-267 for everything but maps; [fe] is [m.F]. *)
Definition gen_scalar (fe : expr) (key : Z) (k : kind) (sh : shape) : stmt :=
  match classify k with
  | CFix64 =>
      match sh with
      | ShPacked => SAddTo "n" (EAdd (EAdd (EInt key) (sov (EMul (ELen fe) (EInt 8)))) (EMul (ELen fe) (EInt 8)))
      | ShRepeated => SAddTo "n" (EMul (EInt (key + 8)) (ELen fe))
      | ShPlain => SIf (ENe fe (EInt 0)) (SAddTo "n" (EInt (key + 8))) SSkip
      | _ => SAddTo "n" (EInt (key + 8))
      end
  | CFix32 =>
      match sh with
      | ShPacked => SAddTo "n" (EAdd (EAdd (EInt key) (sov (EMul (ELen fe) (EInt 4)))) (EMul (ELen fe) (EInt 4)))
      | ShRepeated => SAddTo "n" (EMul (EInt (key + 4)) (ELen fe))
      | ShPlain => SIf (ENe fe (EInt 0)) (SAddTo "n" (EInt (key + 4))) SSkip
      | _ => SAddTo "n" (EInt (key + 4))
      end
  | CVar =>
      match sh with
      | ShPacked =>
          block [SSet "l" (EInt 0);
                 SRange "_" "e" fe (SAddTo "l" (sov (EVar "e")));
                 SAddTo "n" (EAdd (EAdd (EInt key) (sov (EVar "l"))) (EVar "l"))]
      | ShRepeated => SRange "_" "e" fe (SAddTo "n" (EAdd (EInt key) (sov (EVar "e"))))
      | ShNullable => SAddTo "n" (EAdd (EInt key) (sov (EStar fe)))
      | ShPlain => SIf (ENe fe (EInt 0)) (SAddTo "n" (EAdd (EInt key) (sov fe))) SSkip
      | ShOneof => SAddTo "n" (EAdd (EInt key) (sov fe))
      end
  | CBool =>
      match sh with
      | ShPacked => SAddTo "n" (EAdd (EAdd (EInt key) (sov (ELen fe))) (EMul (ELen fe) (EInt 1)))
      | ShRepeated => SAddTo "n" (EMul (EInt (key + 1)) (ELen fe))
      | ShPlain => SIf fe (SAddTo "n" (EInt (key + 1))) SSkip
      | _ => SAddTo "n" (EInt (key + 1))
      end
  | CStr =>
      match sh with
      | ShPacked | ShRepeated =>
          SRange "_" "s" fe (block [SSet "l" (ELen (EVar "s")); SAddTo "n" (key_l key)])
      | ShNullable => block [SSet "l" (ELen (EStar fe)); SAddTo "n" (key_l key)]
      | ShPlain =>
          block [SSet "l" (ELen fe); SIf (EGt (EVar "l") (EInt 0)) (SAddTo "n" (key_l key)) SSkip]
      | ShOneof => block [SSet "l" (ELen fe); SAddTo "n" (key_l key)]
      end
  | CGrp m =>
      block [gen_messageSize fe m; SAddTo "n" (EAdd (EVar "l") (EInt (2 * key)))]
  | CMsg m =>
      match sh with
      | ShPacked | ShRepeated =>
          SRange "_" "e" fe (block [gen_messageSize (EVar "e") m; SAddTo "n" (key_l key)])
      | _ => block [gen_messageSize fe m; SAddTo "n" (key_l key)]
      end
  | CByt =>
      match sh with
      | ShPacked | ShRepeated =>
          SRange "_" "b" fe (block [SSet "l" (ELen (EVar "b")); SAddTo "n" (key_l key)])
      | ShPlain =>
          block [SSet "l" (ELen fe); SIf (EGt (EVar "l") (EInt 0)) (SAddTo "n" (key_l key)) SSkip]
      | _ => block [SSet "l" (ELen fe); SAddTo "n" (key_l key)]
      end
  | CZig =>
      match sh with
      | ShPacked =>
          block [SSet "l" (EInt 0);
                 SRange "_" "e" fe (SAddTo "l" (soz (EVar "e")));
                 SAddTo "n" (EAdd (EAdd (EInt key) (sov (EVar "l"))) (EVar "l"))]
      | ShRepeated => SRange "_" "e" fe (SAddTo "n" (EAdd (EInt key) (soz (EVar "e"))))
      | ShNullable => SAddTo "n" (EAdd (EInt key) (soz (EStar fe)))
      | ShPlain => SIf (ENe fe (EInt 0)) (SAddTo "n" (EAdd (EInt key) (soz fe))) SSkip
      | ShOneof => SAddTo "n" (EAdd (EInt key) (soz fe))
      end
  end.

(** [field.Message != nil] for a field that is not a map. *)
Definition has_message (k : kind) : bool :=
  match k with KMessage _ | KGroup _ => true | _ => false end.

(** size.go:61-276 field.  In a wrapper ([oneof]), [m.F] is the wrapper's member. *)
Definition gen_field (f : fdesc) : stmt :=
  match f_ty f with
  | TMap kk vk =>
      let fe := ESel (EVar "m") (MSlot (f_slot f)) in
      SIf (EGt (ELen fe) (EInt 0)) (gen_map fe (f_num f) kk vk) SSkip
  | TField lbl k =>
      let key := KeySize (f_num f) (ProtoWireType k) in
      match lbl with
      | LOneof =>
          let fe := ESel (EVar "m") (MIn (f_num f)) in
          if has_message k then
            SIf (ENe fe ENil) (gen_scalar fe key k ShNullable)
              (match k with KMessage _ => SAddTo "n" (EInt (key + 1)) | _ => SSkip end)
          else gen_scalar fe key k ShOneof
      | LRepeated packed =>
          let fe := ESel (EVar "m") (MSlot (f_slot f)) in
          SIf (EGt (ELen fe) (EInt 0))
            (if packed then gen_scalar fe (KeySize (f_num f) 2) k ShPacked
             else gen_scalar fe key k ShRepeated) SSkip
      | LOptional | LRequired =>
          let fe := ESel (EVar "m") (MSlot (f_slot f)) in
          SIf (ENe fe ENil) (gen_scalar fe key k ShNullable) SSkip
      | LImplicit =>
          let fe := ESel (EVar "m") (MSlot (f_slot f)) in
          if has_message k then SIf (ENe fe ENil) (gen_scalar fe key k ShNullable) SSkip
          else gen_scalar fe key k ShPlain
      end
  end.

(** [IsWellKnownType(message)], size.go:309. *)
Definition is_known (d : dispatch) : bool := match d with DKnown => true | _ => false end.

(** size.go:310-315: the cases of the type switch. *)
Fixpoint gen_cases (l : list fdesc) : stmt :=
  match l with
  | [] => SSkip
  | f :: l' =>
      SCase (f_num f) (SAddTo "n" (EMeth (ECastIn (f_num f) (EVar "c")) "SizeVT")) (gen_cases l')
  end.

(** size.go:309-320: one oneof; [field.Oneof.Fields] are the fields that share
    the struct member. *)
Definition gen_oneof (m : nat) (md : mdesc) (s : nat) : stmt :=
  let fe := ESel (EVar "m") (MSlot s) in
  if is_known (dp m) then
    SSwitch "c" fe (gen_cases (filter (fun g => Nat.eqb (f_slot g) s) (md_fields md)))
  else
    SAssert "vtmsg" false fe "SizeVT" (SAddTo "n" (EMeth (EVar "vtmsg") "SizeVT")) SSkip.

(** size.go:298-322: the walk over the fields; [seen] is the set [oneofs]. *)
Fixpoint gen_fields (m : nat) (md : mdesc) (seen : list nat) (l : list fdesc) : list stmt :=
  match l with
  | [] => []
  | f :: l' =>
      if is_oneof f then
        if existsb (Nat.eqb (f_slot f)) seen then gen_fields m md seen l'
        else gen_oneof m md (f_slot f) :: gen_fields m md (f_slot f :: seen) l'
      else gen_field f :: gen_fields m md seen l'
  end.

(** size.go:293-297 / 338-342: the beginning of both kinds of methods. *)
Definition prologue : list stmt :=
  [SIf (EEq (EVar "m") ENil) (SReturn (EInt 0)) SSkip; SVar "l"; SBlank "l"].

(** size.go:292-327: [func (m *T) SizeVT() (n int)]. *)
Definition gen_SizeVT (m : nat) (md : mdesc) : stmt :=
  block (prologue ++ gen_fields m md [] (md_fields md)
         ++ (if md_keep md then [SAddTo "n" (ELen (ESel (EVar "m") MUnknown))] else [])
         ++ [SReturn (EVar "n")]).

(** size.go:330-347: [func (m *T_F) SizeVT() (n int)]. *)
Definition gen_wrapper_SizeVT (f : fdesc) : stmt :=
  block (prologue ++ [gen_field f; SReturn (EVar "n")]).

(** size.go:282-348 message: the methods printed for a message, in order.  The
    receiver's type is the message or the wrapper of one of its fields. *)
Definition gen_message (nm : names) (tname : string) (m : nat) (md : mdesc) : string :=
  ("func(m*" ++ tname ++ ")SizeVT()(nint){" ++ print_stmt nm (gen_SizeVT m md) ++ "}"
   ++ String.concat "" (map (fun f => "func(m*" ++ n_castin nm (f_num f) ++ ")SizeVT()(nint){"
                                      ++ print_stmt nm (gen_wrapper_SizeVT f) ++ "}")
        (filter is_oneof (md_fields md))))%string.

(** Running the printed methods: a method of a message type with helpers or of a
    wrapper runs its body; [n] bounds the depth of the calls. *)
Fixpoint run_SizeVT (sc : schema) (n : nat) (g : gval) (h : string) : option gval :=
  match n with
  | O => None
  | S n' =>
      if String.eqb h "SizeVT" then
        match g with
        | GV (TMsg m) _ =>
            if md_foreign (md_of sc m) then None
            else method sc (run_SizeVT sc n') (gen_SizeVT m (md_of sc m)) g
        | GV (TWrap m num) _ =>
            match find_field num (md_fields (md_of sc m)) with
            | Some f => method sc (run_SizeVT sc n') (gen_wrapper_SizeVT f) g
            | None => None
            end
        | _ => None
        end
      else None
  end.
End Gen.
