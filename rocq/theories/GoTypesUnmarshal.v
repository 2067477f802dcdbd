(** The static rules of Go for the printed UnmarshalVT and UnmarshalVTUnsafe: the rules of
    GoTypes.v for the syntax of GoUnmarshal.v.  A specification of the compiler, not a file of
    /repo.  Rule for [x |= e]: it evaluates [x], so the compiler counts it as a use; plain
    assignments, [x += e] and [x++] are not counted here (the compiler counts the last two, so
    these rules accept less). *)
From Coq Require Import ZArith List Bool String Arith.
From Verif Require Import Base Schema Value Typing GoSyntax GoMarshal GenSize GenMarshal GoUnmarshal GoTypes.
Import ListNotations.
Open Scope string_scope.
Open Scope Z_scope.
Open Scope list_scope.

Section Check.
Variable sc : schema.
Variable dp : nat -> dispatch.
Variable wrap : bool.
Variable declared : string -> bool.
(** The messages that have a function FromVTPool. *)
Variable pools : nat -> bool.
(** The message whose method is printed, and the name of the method. *)
Variable self : nat.
Variable meth : string.

(** The enum or message type printed for field [num] (QualifiedGoIdent of the field's enum or
    message; of the values of a map). *)
Definition named (num : Z) : option kind :=
  match find_field num (md_fields (md_of sc self)) with
  | Some f => match f_ty f with TField _ k => Some k | TMap _ vk => Some vk end
  | None => None
  end.
Definition names_msg (num : Z) (a : nat) : bool :=
  match named num with Some (KMessage b | KGroup b) => msg_eqb b a | _ => false end.
(** The type of an element of kind [k] of field [num]: a named type is that of the field. *)
Definition elem_ty (num : Z) (k : kind) : option gtyp :=
  match k with
  | KEnum => match named num with Some KEnum => Some YEnum | _ => None end
  | KMessage a | KGroup a => guard (names_msg num a) (YPtr (YMsg a))
  | _ => Some (kind_ty k)
  end.
(** A type in [var x T] and [T(e)]. *)
Definition uty_ty (y : uty) : option gtyp :=
  match y with
  | GoUnmarshal.YInt => Some YInt
  | GoUnmarshal.YU64 => Some YU64
  | GoUnmarshal.YU32 => Some YU32
  | GoUnmarshal.YStr => Some YStr
  | YOf num k => match k with KMessage _ | KGroup _ => None | _ => elem_ty num k end
  end.

(** m.F and the elements of a list m.F. *)
Definition sel_ty (G : ctx) (s : nat) : option gtyp :=
  match var_ty G "m" with
  | Some t => match struct_of t with Some a => slot_ty sc a s | None => None end
  | None => None
  end.
Definition last_ty (G : ctx) (s : nat) : option gtyp :=
  match sel_ty G s with Some (YSlice t) => Some t | _ => None end.

(** Assignability, and the implementation of the interface of a oneof by its wrappers. *)
Definition uassignable (a t : gtyp) : bool :=
  match a, t with
  | YPtr (YWrap b n), YOne c s => msg_eqb b c && implements sc c s n
  | _, _ => assignable a t
  end.

(** Conversions [T(e)] between numbers and between the same types. *)
Definition convertible (a t : gtyp) : bool := (is_numeric a && is_numeric t) || assignable a t.

Fixpoint uty_of (G : ctx) (e : uexp) : option gtyp :=
  let un e (f : gtyp -> option gtyp) := match uty_of G e with Some t => f t | None => None end in
  let two a b (f : gtyp -> gtyp -> option gtyp) :=
    match uty_of G a, uty_of G b with Some s, Some t => f s t | _, _ => None end in
  let arith a b (ok : gtyp -> bool) := two a b (fun s t => match common s t with Some r => guard (ok r) r | None => None end) in
  let order a b := two a b (fun s t => match common s t with Some r => guard (is_numeric r) YBool | None => None end) in
  let int e := match uty_of G e with Some t => assignable t YInt | None => false end in
  match e with
  | XVar x => var_ty G x
  | XLit _ z => Some (YConst z)
  | XConv y e => match uty_ty y with Some t => un e (fun a => guard (convertible a t) t) | None => None end
  | XPar e => uty_of G e
  | XAdd a b | XSub a b | XDiv a b => arith a b is_numeric
  | XAnd a b | XXor a b => arith a b is_integer
  | XShl _ a b | XShr a b =>
      two a b (fun s t => guard (is_integer s && (is_integer t || match t with YConst z => 0 <=? z | _ => false end)) s)
  | XLt a b | XGt a b | XGe a b | XLe a b => order a b
  | XEq a b | XNe a b => two a b (fun s t => match common s t with Some r => guard (comparable r) YBool | None => None end)
  | XBoth a b | XEither a b => two a b (fun s t => match s, t with YBool, YBool => Some YBool | _, _ => None end)
  | XNil e => un e (fun t => guard (is_nilable t) YBool)
  | XErr => match var_ty G "err" with Some YErr => Some YBool | _ => None end
  | XByte e => guard (has_buffer G && int e) YU8
  | XAll => guard (has_buffer G) YInt
  | XData a b => guard (has_buffer G && int a && int b) YBytes
  | XLittle n => guard (has_buffer G && has_int G "iNdEx") (if Nat.eqb n 8 then YU64 else YU32)
  | XBits n e => un e (fun t => if Nat.eqb n 8 then guard (assignable t YU64) YF64 else guard (assignable t YU32) YF32)
  | XStr e => un e (fun t => match t with YSlice YU8 => Some YStr | _ => None end)
  | XUnsafe e | XUnique e => un e (fun t => guard (has_buffer G && has_int G "iNdEx" && is_integer t) YStr)
  | XMake e => un e (fun t => guard (is_integer t) YBytes)
  | XBytes => Some YBytes
  | XEmpty => Some YStr
  | XField s => sel_ty G s
  | XLen s => match sel_ty G s with Some (YStr | YSlice _ | YMap _ _) => Some YInt | _ => None end
  | XCap s => match sel_ty G s with Some (YSlice _) => Some YInt | _ => None end
  | XLast s => last_ty G s
  | XAddr x => match var_ty G x with Some t => Some (YPtr t) | None => None end
  | XNew num a => guard (names_msg num a) (YPtr (YMsg a))
  | XPool num a => guard (names_msg num a && pools a) (YPtr (YMsg a))
  | XWrap num e =>
      match in_ty sc self num with
      | Some t => un e (fun a => guard (uassignable a t) (YPtr (YWrap self num)))
      | None => None
      end
  | XAppend s e => match last_ty G s with Some t => un e (fun a => guard (uassignable a t) (YSlice t)) | None => None end
  | XRefill s a b => match last_ty G s with Some YU8 => guard (has_buffer G && int a && int b) YBytes | _ => None end
  | XMap num kk vk =>
      match elem_ty num vk with Some v => guard (comparable (kind_ty kk)) (YMap (kind_ty kk) v) | None => None end
  | XSlice num k => match elem_ty num k with Some t => guard (has_int G "elementCount") (YSlice t) | None => None end
  end.

(** The variables an expression reads. *)
Fixpoint ureads (G : ctx) (e : uexp) : list nat :=
  match e with
  | XVar x | XAddr x => use G x
  | XLit _ _ | XBytes | XEmpty | XNew _ _ | XPool _ _ | XMap _ _ _ => []
  | XConv _ e | XPar e | XNil e | XBits _ e | XStr e | XMake e | XWrap _ e => ureads G e
  | XAdd a b | XSub a b | XDiv a b | XAnd a b | XXor a b | XShl _ a b | XShr a b | XLt a b | XGt a b | XGe a b
  | XLe a b | XEq a b | XNe a b | XBoth a b | XEither a b => ureads G a ++ ureads G b
  | XErr => use G "err"
  | XByte e => use G "dAtA" ++ ureads G e
  | XAll => use G "dAtA"
  | XData a b => use G "dAtA" ++ ureads G a ++ ureads G b
  | XLittle _ => use G "dAtA" ++ use G "iNdEx"
  | XUnsafe e | XUnique e => use G "dAtA" ++ use G "iNdEx" ++ ureads G e
  | XField _ | XLen _ | XCap _ | XLast _ => use G "m"
  | XAppend _ e => use G "m" ++ ureads G e
  | XRefill _ a b => use G "m" ++ use G "dAtA" ++ ureads G a ++ ureads G b
  | XSlice _ _ => use G "elementCount"
  end.

Definition ugives (G : ctx) (e : uexp) (t : gtyp) : bool :=
  match uty_of G e with Some a => uassignable a t | None => false end.
Definition uis_bool (G : ctx) (e : uexp) : bool := match uty_of G e with Some YBool => true | _ => false end.

(** What is assigned to: its type and the variables that are read to reach it; [op]: the old value
    is read too. *)
Definition lval_ty (G : ctx) (l : lval) : option gtyp :=
  match l with LVar x => var_ty G x | LSlot s => sel_ty G s | LLast s => last_ty G s end.
Definition lval_reads (op : bool) (G : ctx) (l : lval) : list nat :=
  match l with LVar x => if op then use G x else [] | LSlot _ | LLast _ => use G "m" end.

(** What a message is decoded into. *)
Definition place_ty (G : ctx) (p : place) : option gtyp :=
  match p with
  | PVar x => var_ty G x
  | PSlot s => sel_ty G s
  | PLast s => last_ty G s
  | PIn _ num =>
      match var_ty G "oneof" with
      | Some (YPtr (YWrap a n)) => if n =? num then in_ty sc a num else None
      | _ => None
      end
  end.
Definition place_reads (G : ctx) (p : place) : list nat :=
  match p with PVar x => use G x | PSlot _ | PLast _ => use G "m" | PIn _ _ => use G "oneof" end.

(** May decodeMessage be printed for a place of type [t]? *)
Definition decodes (d : dispatch) (t : gtyp) (a : nat) : bool :=
  match d with
  | DKnown =>
      match struct_of t with
      | Some b => msg_eqb a b && (wrap || is_known (dp a)) && has_method dp wrap declared (YPtr (YOwn a)) GUnm meth
      | None => false
      end
  | DLocal => has_method dp wrap declared t GUnm meth
  | DOther => match t with YPtr (YMsg _) => true | _ => false end
  end.

(** The errors that are returned: their variables exist, the helpers are those of protohelpers. *)
Definition uerr_ok (G : ctx) (e : uerr) : bool :=
  match e with
  | RErr => match var_ty G "err" with Some YErr => true | _ => false end
  | RHelper h _ => String.eqb h "ErrInvalidLength" || String.eqb h "ErrIntOverflow"
  | RWrong _ => match var_ty G "wireType" with Some _ => true | None => false end
  | RIllegal => match var_ty G "fieldNum", var_ty G "wire" with Some _, Some _ => true | _, _ => false end
  | RNil | REOF | REndGroup | RRequired _ => true
  end.
Definition uerr_reads (G : ctx) (e : uerr) : list nat :=
  match e with
  | RErr => use G "err"
  | RWrong _ => use G "wireType"
  | RIllegal => use G "fieldNum" ++ use G "wire"
  | _ => []
  end.

Fixpoint ucase_nums (s : ustmt) : list Z :=
  match s with UCase n _ rest => n :: ucase_nums rest | _ => [] end.

(** [br]: inside a loop or switch, where [break] is allowed; [sw]: the type of the switch this is a
    case of. *)
Fixpoint ucheck (br : bool) (sw : option gtyp) (start : nat) (G : ctx) (s : ustmt) : checked :=
  let blk br G b := close G (ucheck br None (List.length G) G b) in
  match s with
  | USkip => Some (G, [])
  | USeq a b =>
      match ucheck br None start G a with
      | Some (G1, u) =>
          match ucheck br None start G1 b with Some (G2, v) => Some (G2, u ++ v) | None => None end
      | None => None
      end
  | UVar x y => match uty_ty y with Some t => declare start G x t [] | None => None end
  | UPtrVar x num k => match elem_ty num k with Some t => declare start G x t [] | None => None end
  | UDef x e =>
      match uty_of G e with
      | Some t => match default_ty t with Some t' => declare start G x t' (ureads G e) | None => None end
      | None => None
      end
  | USet l e =>
      match lval_ty G l with
      | Some t => if ugives G e t then Some (G, lval_reads false G l ++ ureads G e) else None
      | None => None
      end
  | UOr l e =>
      match lval_ty G l with
      | Some t => if is_integer t && ugives G e t then Some (G, lval_reads true G l ++ ureads G e) else None
      | None => None
      end
  | UInc x => match var_ty G x with Some t => if is_numeric t then Some (G, []) else None | None => None end
  | UAdd x e =>
      match var_ty G x with
      | Some t => if is_numeric t && ugives G e t then Some (G, ureads G e) else None
      | None => None
      end
  | UIf c a b =>
      if uis_bool G c then after G (both (Some (ureads G c)) (both (blk br G a) (blk br G b))) else None
  | UWhile c a => if uis_bool G c then after G (both (Some (ureads G c)) (blk true G a)) else None
  | UEver a => after G (blk true G a)
  | UShift a =>
      let G1 := ("shift", YUint) :: G in
      after G (close G (after G1 (blk true G1 a)))
  | UBreak => if br then Some (G, []) else None
  | URet e => if uerr_ok G e then Some (G, uerr_reads G e) else None
  | UHelperSkip =>
      if has_buffer G && has_int G "iNdEx" then declare2 start G "skippy" YInt (use G "dAtA" ++ use G "iNdEx") else None
  | UDecode d p a x y =>
      match place_ty G p with
      | Some t =>
          if decodes d t a && has_buffer G && ugives G x YInt && ugives G y YInt
          then Some (G, place_reads G p ++ use G "dAtA" ++ ureads G x ++ ureads G y) else None
      | None => None
      end
  | UOneof s num a b =>
      match sel_ty G s with
      | Some (YOne c s') =>
          if implements sc c s' num then
            let G1 := ("oneof", YPtr (YWrap c num)) :: G in
            after G (close G (after G1 (both (Some (use G "m")) (both (blk br G1 a) (blk br G1 b)))))
          else None
      | _ => None
      end
  | UGrow s => match last_ty G s with Some _ => Some (G, use G "m") | None => None end
  | UCopy l a b =>
      match lval_ty G l with
      | Some (YSlice YU8) =>
          if has_buffer G && ugives G a YInt && ugives G b YInt
          then Some (G, lval_reads true G l ++ use G "dAtA" ++ ureads G a ++ ureads G b) else None
      | _ => None
      end
  | UPut s =>
      match sel_ty G s, var_ty G "mapkey", var_ty G "mapvalue" with
      | Some (YMap k v), Some k', Some v' =>
          if assignable k' k && assignable v' v then Some (G, use G "m" ++ use G "mapkey" ++ use G "mapvalue") else None
      | _, _, _ => None
      end
  | UHas n => declare start G "hasFields" (YArr n) []
  | UMark i mask =>
      match var_ty G "hasFields" with
      | Some (YArr n) => if Nat.ltb i n && fits YU64 mask then Some (G, use G "hasFields") else None
      | _ => None
      end
  | UMissing i mask a =>
      match var_ty G "hasFields" with
      | Some (YArr n) =>
          if Nat.ltb i n && fits YU64 mask then after G (both (Some (use G "hasFields")) (blk br G a)) else None
      | _ => None
      end
  | UCount a =>
      if has_buffer G && has_int G "iNdEx" && has_int G "postIndex" then
        let G1 := ("integer", YU8) :: G in
        after G (close G (after G1 (both (Some (use G "dAtA" ++ use G "iNdEx" ++ use G "postIndex")) (blk true G1 a))))
      else None
  | UExt =>
      match var_ty G "err", var_ty G "m" with
      | Some YErr, Some (YPtr (YMsg _)) =>
          if has_buffer G && has_int G "iNdEx" && has_int G "skippy"
          then Some (G, use G "dAtA" ++ use G "iNdEx" ++ use G "skippy" ++ use G "m") else None
      | _, _ => None
      end
  | UKeep =>
      (* not exported: accessible in the package protoc-gen-go writes to *)
      match var_ty G "m" with
      | Some (YPtr (YMsg a)) =>
          if negb wrap && is_local dp a && has_buffer G && has_int G "iNdEx" && has_int G "skippy"
          then Some (G, use G "m" ++ use G "dAtA" ++ use G "iNdEx" ++ use G "skippy") else None
      | _ => None
      end
  | USwitch a =>
      match var_ty G "fieldNum" with
      | Some t =>
          if is_integer t && distinct (ucase_nums a)
          then match ucheck true (Some t) (List.length G) G a with
               | Some (_, u) => Some (G, use G "fieldNum" ++ u)
               | None => None
               end
          else None
      | None => None
      end
  | UCase num a rest =>
      match sw with
      | Some t =>
          if fits t num then
            match blk true G a, ucheck br sw start G rest with
            | Some u, Some (_, v) => Some (G, u ++ v)
            | _, _ => None
            end
          else None
      | None => None
      end
  | UDefault a => match sw with Some _ => after G (blk true G a) | None => None end
  end.

(** Does the function end in a return statement? *)
Fixpoint ureturns (s : ustmt) : bool :=
  match s with
  | URet _ => true
  | USeq a USkip => ureturns a
  | USeq _ b => ureturns b
  | _ => false
  end.

(** The method with receiver [t] is accepted. *)
Definition ucompiles (t : gtyp) (body : ustmt) : bool :=
  let P := [("dAtA", YBytes); ("m", t)] in
  match close P (ucheck false None 0 P body) with Some _ => ureturns body | None => false end.
End Check.
