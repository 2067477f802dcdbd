(** Model of /repo/features/unmarshal/unmarshal.go as a generator: the statements it prints for
    UnmarshalVT and UnmarshalVTUnsafe, as syntax of GoUnmarshal.v. *)
From Coq Require Import ZArith List Bool String.
From Verif Require Import Base Schema Value Helpers Unmarshal GoSyntax GenSize GoUnmarshal.
Import ListNotations.
Open Scope string_scope.
Open Scope Z_scope.
Open Scope list_scope.

Definition num (z : Z) : uexp := XLit (itoa z) z.
Definition iNdEx : uexp := XVar "iNdEx".
Definition bad_length : ustmt := URet (RHelper "ErrInvalidLength" EInvalidLength).

(** unmarshal.go:82-98 decodeVarint *)
Definition u_varint (l : lval) (y : uty) : ustmt :=
  UShift (ublock
    [UIf (XGe (XVar "shift") (num 64)) (URet (RHelper "ErrIntOverflow" EIntOverflow)) USkip;
     UIf (XGe iNdEx (XVar "l")) (URet REOF) USkip;
     UDef "b" (XByte iNdEx);
     UInc "iNdEx";
     UOr l (XShl y (XConv y (XAnd (XVar "b") (XLit "0x7F" 127))) (XVar "shift"));
     UIf (XLt (XVar "b") (XLit "0x80" 128)) UBreak USkip]).

(** unmarshal.go:100-114 decodeFixed32, decodeFixed64 *)
Definition u_fixed (n : nat) (l : lval) (y : uty) : list ustmt :=
  [UIf (XGt (XPar (XAdd iNdEx (num (Z.of_nat n)))) (XVar "l")) (URet REOF) USkip;
   USet l (XConv y (XLittle n));
   UAdd "iNdEx" (num (Z.of_nat n))].

(** The checks of a length: [ln < 0], [post := iNdEx + ln], [post < 0], [post > l]
    (unmarshal.go:188-197, 218-227, 236-245, 426-435, 485-494, 580-589, 731-740). *)
Definition u_check (ln post : string) : list ustmt :=
  [UIf (XLt (XVar ln) (num 0)) bad_length USkip;
   UDef post (XAdd iNdEx (XVar ln));
   UIf (XLt (XVar post) (num 0)) bad_length USkip;
   UIf (XGt (XVar post) (XVar "l")) (URet REOF) USkip].
(** A length read as an int (unmarshal.go:216-227, 483-494, 578-589, 729-740). *)
Definition u_len_int (ln post : string) : list ustmt :=
  UVar ln YInt :: u_varint (LVar ln) YInt :: u_check ln post.
(** A length read as a uint64 (unmarshal.go:185-197, 233-245, 423-435). *)
Definition u_len_u64 (raw ln post : string) : list ustmt :=
  UVar raw YU64 :: u_varint (LVar raw) YU64 :: UDef ln (XConv YInt (XVar raw)) :: u_check ln post.

(** unmarshal.go:473-480, 536-546, 834-843: Skip and its checks; [hi]: the bound checked. *)
Definition u_skip (hi : option string) : list ustmt :=
  [UHelperSkip;
   UIf XErr (URet RErr) USkip;
   UIf (XEither (XPar (XLt (XVar "skippy") (num 0))) (XLt (XPar (XAdd iNdEx (XVar "skippy"))) (num 0))) bad_length USkip]
  ++ match hi with
     | Some x => [UIf (XGt (XPar (XAdd iNdEx (XVar "skippy"))) (XVar x)) (URet REOF) USkip]
     | None => []
     end.

Section Gen.
Variable dp : nat -> dispatch.
(** ShouldPool. *)
Variable pool : nat -> bool.
(** The option [unique] of a field. *)
Variable unique : Z -> bool.
Variable unsafe : bool.

(** A string variable set to [dAtA[iNdEx:iNdEx+ln]] (unmarshal.go:198-213). *)
Definition u_string (x ln post : string) (u : bool) : list ustmt :=
  if unsafe then
    [UIf (XEq (XVar ln) (num 0)) (USet (LVar x) XEmpty) (USet (LVar x) (XUnsafe (XVar ln)))]
  else if u then
    [UIf (XEq (XVar ln) (num 0)) (USet (LVar x) XEmpty) (USet (LVar x) (XUnique (XVar ln)))]
  else [USet (LVar x) (XStr (XData iNdEx (XVar post)))].

(** Zig-zag: [(uint32(v) >> 1) ^ uint32(((v&1)<<31)>>31)], [(v >> 1) ^ uint64((int64(v&1)<<63)>>63)]. *)
Definition u_zig32 (y : uty) (v : uexp) : uexp :=
  XXor (XPar (XShr (XConv YU32 v) (num 1)))
    (XConv YU32 (XShr (XPar (XShl y (XPar (XAnd v (num 1))) (num 31))) (num 31))).
Definition u_zig64 (v : uexp) : uexp :=
  XXor (XPar (XShr v (num 1)))
    (XConv YU64 (XShr (XPar (XShl (YOf 0 KInt64) (XConv (YOf 0 KInt64) (XAnd v (num 1))) (num 63))) (num 63))).

(** unmarshal.go:160-273 mapField; [fn]: the field, [x]: mapkey or mapvalue. *)
Definition u_mapField (fn : Z) (x : string) (k : kind) (u : bool) : list ustmt :=
  let temp := (x ++ "temp")%string in
  match k with
  | KDouble => UVar temp YU64 :: u_fixed 8 (LVar temp) YU64 ++ [USet (LVar x) (XBits 8 (XVar temp))]
  | KFloat => UVar temp YU32 :: u_fixed 4 (LVar temp) YU32 ++ [USet (LVar x) (XBits 4 (XVar temp))]
  | KInt64 | KUint64 | KInt32 | KUint32 | KEnum => [u_varint (LVar x) (YOf fn k)]
  | KFixed64 | KSfixed64 => u_fixed 8 (LVar x) (YOf fn k)
  | KFixed32 | KSfixed32 => u_fixed 4 (LVar x) (YOf fn k)
  | KBool => [UVar temp YInt; u_varint (LVar temp) YInt; USet (LVar x) (XConv (YOf fn KBool) (XNe (XVar temp) (num 0)))]
  | KString =>
      u_len_u64 ("stringLen" ++ x) ("intStringLen" ++ x) ("postStringIndex" ++ x)
      ++ u_string x ("intStringLen" ++ x) ("postStringIndex" ++ x) u
      ++ [USet (LVar "iNdEx") (XVar ("postStringIndex" ++ x))]
  | KMessage m =>
      u_len_int "mapmsglen" "postmsgIndex"
      ++ [USet (LVar x) (XNew fn m); UDecode (dp m) (PVar x) m iNdEx (XVar "postmsgIndex");
          USet (LVar "iNdEx") (XVar "postmsgIndex")]
  | KBytes =>
      u_len_u64 "mapbyteLen" "intMapbyteLen" "postbytesIndex"
      ++ (if unsafe then [USet (LVar x) (XData iNdEx (XVar "postbytesIndex"))]
          else [USet (LVar x) (XMake (XVar "mapbyteLen")); UCopy (LVar x) iNdEx (XVar "postbytesIndex")])
      ++ [USet (LVar "iNdEx") (XVar "postbytesIndex")]
  | KSint32 =>
      [UVar temp (YOf fn KInt32); u_varint (LVar temp) (YOf fn KInt32);
       USet (LVar temp) (XConv (YOf fn KInt32) (u_zig32 (YOf fn KInt32) (XVar temp)));
       USet (LVar x) (XConv (YOf fn KInt32) (XVar temp))]
  | KSint64 =>
      [UVar temp YU64; u_varint (LVar temp) YU64; USet (LVar temp) (u_zig64 (XVar temp));
       USet (LVar x) (XConv (YOf fn KInt64) (XVar temp))]
  | KGroup _ => []
  end.

(** unmarshal.go:482-494, 509-548, 575: a map field. *)
Definition u_map (f : fdesc) (kk vk : kind) : list ustmt :=
  let s := f_slot f in
  let fn := f_num f in
  u_len_int "msglen" "postIndex"
  ++ [UIf (XNil (XField s)) (USet (LSlot s) (XMap fn kk vk)) USkip;
      UPtrVar "mapkey" fn kk; UPtrVar "mapvalue" fn vk;
      UWhile (XLt iNdEx (XVar "postIndex"))
        (ublock
          ([UDef "entryPreIndex" iNdEx; UVar "wire" YU64; u_varint (LVar "wire") YU64;
            UDef "fieldNum" (XConv (YOf fn KInt32) (XShr (XVar "wire") (num 3)))]
           ++ [UIf (XEq (XVar "fieldNum") (num 1)) (ublock (u_mapField fn "mapkey" kk (unique fn)))
                (UIf (XEq (XVar "fieldNum") (num 2)) (ublock (u_mapField fn "mapvalue" vk (unique fn)))
                  (ublock (USet (LVar "iNdEx") (XVar "entryPreIndex") :: u_skip (Some "postIndex")
                           ++ [UAdd "iNdEx" (XVar "skippy")])))]));
      UPut s; USet (LVar "iNdEx") (XVar "postIndex")].

(** The stores of fieldItem: [e] is stored in a oneof, appended or assigned; [x] is the variable
    whose address is taken (e.g. unmarshal.go:320-336). *)
Definition u_store (f : fdesc) (lbl : label) (e : uexp) (x : string) : list ustmt :=
  let s := f_slot f in
  match lbl with
  | LOneof => [USet (LSlot s) (XWrap (f_num f) e)]
  | LRepeated _ => [USet (LSlot s) (XAppend s e)]
  | LImplicit => [USet (LSlot s) e]
  | LOptional | LRequired => [USet (LSlot s) (XAddr x)]
  end.
(** With a variable [x := e] where one is needed: for an address, and in a list too if [lst], in
    a oneof too if [one]. *)
Definition u_store_var (f : fdesc) (lbl : label) (e : uexp) (x : string) (lst one : bool) : list ustmt :=
  match lbl with
  | LOneof => if one then UDef x e :: u_store f lbl (XVar x) x else u_store f lbl e x
  | LRepeated _ => if lst then UDef x e :: u_store f lbl (XVar x) x else u_store f lbl e x
  | LImplicit => u_store f lbl e x
  | LOptional | LRequired => UDef x e :: u_store f lbl e x
  end.

(** The kinds decoded in place when implicit (unmarshal.go:319-403, 614-682). *)
Definition u_direct (f : fdesc) (lbl : label) (k : kind) (dec : lval -> list ustmt) : list ustmt :=
  match lbl with
  | LImplicit => USet (LSlot (f_slot f)) (num 0) :: dec (LSlot (f_slot f))
  | _ => UVar "v" (YOf (f_num f) k) :: dec (LVar "v") ++ u_store f lbl (XVar "v") "v"
  end.

(** unmarshal.go:482-508, 549-575: a message. *)
Definition u_message (md_pooled : bool) (f : fdesc) (lbl : label) (m : nat) : list ustmt :=
  let s := f_slot f in
  let fn := f_num f in
  let fresh := if md_pooled && pool m then XPool fn m else XNew fn m in
  let decode p := UDecode (dp m) p m iNdEx (XVar "postIndex") in
  u_len_int "msglen" "postIndex"
  ++ match lbl with
     | LOneof =>
         [UOneof s fn (decode (PIn s fn))
            (ublock [UDef "v" fresh; decode (PVar "v"); USet (LSlot s) (XWrap fn (XVar "v"))])]
     | LRepeated _ =>
         (if md_pooled then
            [UIf (XEq (XLen s) (XCap s)) (USet (LSlot s) (XAppend s (XNew fn m)))
               (ublock [UGrow s; UIf (XNil (XLast s)) (USet (LLast s) (XNew fn m)) USkip])]
          else [USet (LSlot s) (XAppend s (XNew fn m))])
         ++ [decode (PLast s)]
     | _ => [UIf (XNil (XField s)) (USet (LSlot s) fresh) USkip; decode (PSlot s)]
     end
  ++ [USet (LVar "iNdEx") (XVar "postIndex")].

(** unmarshal.go:462-481: a group. *)
Definition u_group (f : fdesc) (m : nat) : list ustmt :=
  [UDef "groupStart" iNdEx;
   UEver (ublock
     ([UDef "maybeGroupEnd" iNdEx; UVar "groupFieldWire" YU64; u_varint (LVar "groupFieldWire") YU64;
       UDef "groupWireType" (XConv YInt (XAnd (XVar "wire") (XLit "0x7" 7)));
       UIf (XEq (XVar "groupWireType") (num 4))
         (ublock [UDecode (dp m) (PSlot (f_slot f)) m (XVar "groupStart") (XVar "maybeGroupEnd"); UBreak]) USkip]
      ++ u_skip None ++ [UAdd "iNdEx" (XVar "skippy")]))].

(** unmarshal.go:286-714 fieldItem, not of a map. *)
Definition u_item (md_pooled : bool) (f : fdesc) (lbl : label) (k : kind) : list ustmt :=
  let s := f_slot f in
  let fn := f_num f in
  let ty := YOf fn k in
  match k with
  | KDouble => UVar "v" YU64 :: u_fixed 8 (LVar "v") YU64 ++ u_store_var f lbl (XConv ty (XBits 8 (XVar "v"))) "v2" true false
  | KFloat => UVar "v" YU32 :: u_fixed 4 (LVar "v") YU32 ++ u_store_var f lbl (XConv ty (XBits 4 (XVar "v"))) "v2" true false
  | KInt64 | KUint64 | KInt32 | KUint32 | KEnum => u_direct f lbl k (fun l => [u_varint l ty])
  | KFixed64 | KSfixed64 => u_direct f lbl k (fun l => u_fixed 8 l ty)
  | KFixed32 | KSfixed32 => u_direct f lbl k (fun l => u_fixed 4 l ty)
  | KBool =>
      UVar "v" YInt :: u_varint (LVar "v") YInt :: u_store_var f lbl (XConv ty (XNe (XVar "v") (num 0))) "b" false true
  | KString =>
      u_len_u64 "stringLen" "intStringLen" "postIndex"
      ++ (if unsafe then [UVar "stringValue" YStr;
                          UIf (XGt (XVar "intStringLen") (num 0)) (USet (LVar "stringValue") (XUnsafe (XVar "intStringLen"))) USkip]
          else if unique fn then [UVar "stringValue" YStr;
                          UIf (XGt (XVar "intStringLen") (num 0)) (USet (LVar "stringValue") (XUnique (XVar "intStringLen"))) USkip]
          else [])
      ++ u_store_var f lbl (if unsafe || unique fn then XVar "stringValue" else XStr (XData iNdEx (XVar "postIndex"))) "s" false false
      ++ [USet (LVar "iNdEx") (XVar "postIndex")]
  | KGroup m => u_group f m
  | KMessage m => u_message md_pooled f lbl m
  | KBytes =>
      u_len_int "byteLen" "postIndex"
      ++ match lbl with
         | LOneof =>
             (if unsafe then [UDef "v" (XData iNdEx (XVar "postIndex"))]
              else [UDef "v" (XMake (XSub (XVar "postIndex") iNdEx)); UCopy (LVar "v") iNdEx (XVar "postIndex")])
             ++ [USet (LSlot s) (XWrap fn (XVar "v"))]
         | LRepeated _ =>
             if unsafe then [USet (LSlot s) (XAppend s (XData iNdEx (XVar "postIndex")))]
             else [USet (LSlot s) (XAppend s (XMake (XSub (XVar "postIndex") iNdEx))); UCopy (LLast s) iNdEx (XVar "postIndex")]
         | _ =>
             if unsafe then [USet (LSlot s) (XData iNdEx (XVar "postIndex"))]
             else [USet (LSlot s) (XRefill s iNdEx (XVar "postIndex"));
                   UIf (XNil (XField s)) (USet (LSlot s) XBytes) USkip]
         end
      ++ [USet (LVar "iNdEx") (XVar "postIndex")]
  | KSint32 =>
      [UVar "v" ty; u_varint (LVar "v") ty; USet (LVar "v") (XConv ty (u_zig32 ty (XVar "v")))]
      ++ u_store f lbl (XVar "v") "v"
  | KSint64 =>
      [UVar "v" YU64; u_varint (LVar "v") YU64; USet (LVar "v") (u_zig64 (XVar "v"))]
      ++ u_store_var f lbl (XConv ty (XVar "v")) "v2" false false
  end.

(** unmarshal.go:742-768: the count of elements and the list made for them. *)
Definition u_prealloc (md_pooled : bool) (f : fdesc) (k : kind) : list ustmt :=
  let s := f_slot f in
  UVar "elementCount" YInt
  :: match k with
     | KDouble | KFixed64 | KSfixed64 => [USet (LVar "elementCount") (XDiv (XVar "packedLen") (num 8))]
     | KFloat | KFixed32 | KSfixed32 => [USet (LVar "elementCount") (XDiv (XVar "packedLen") (num 4))]
     | KInt64 | KUint64 | KInt32 | KUint32 | KSint32 | KSint64 =>
         [UVar "count" YInt; UCount (UIf (XLt (XVar "integer") (num 128)) (UInc "count") USkip);
          USet (LVar "elementCount") (XVar "count")]
     | KBool => [USet (LVar "elementCount") (XVar "packedLen")]
     | _ => []
     end
  ++ [UIf (let c := XBoth (XNe (XVar "elementCount") (num 0)) (XEq (XLen s) (num 0)) in
           if md_pooled then XBoth c (XLt (XCap s) (XVar "elementCount")) else c)
        (USet (LSlot s) (XSlice (f_num f) k)) USkip].

Definition wrong (f : fdesc) : ustmt :=
  URet (RWrong (if is_oneof f then MIn (f_num f) else MSlot (f_slot f))).

(** unmarshal.go:716-781 field, without the mark of a required field. *)
Definition u_field (md_pooled : bool) (f : fdesc) : list ustmt :=
  match f_ty f with
  | TMap kk vk => UIf (XNe (XVar "wireType") (num 2)) (wrong f) USkip :: u_map f kk vk
  | TField lbl k =>
      if packable lbl k then
        [UIf (XEq (XVar "wireType") (num (ProtoWireType k))) (ublock (u_item md_pooled f lbl k))
          (UIf (XEq (XVar "wireType") (num 2))
            (ublock (u_len_int "packedLen" "postIndex" ++ u_prealloc md_pooled f k
                     ++ [UWhile (XLt iNdEx (XVar "postIndex")) (ublock (u_item md_pooled f lbl k))]))
            (ublock [wrong f]))]
      else UIf (XNe (XVar "wireType") (num (ProtoWireType k))) (wrong f) USkip :: u_item md_pooled f lbl k
  end.

(** unmarshal.go:783-794 *)
Definition u_mark (md : mdesc) (f : fdesc) : list ustmt :=
  if is_required f then
    let bit := field_bit (required_numbers md) (f_num f) in
    [UMark (bit / 64) (Z.shiftl 1 (Z.of_nat (bit mod 64)))]
  else [].

(** unmarshal.go:845-850.  protogen formats the file (gofmt), which drops the parentheses around
    the condition if there is one range only. *)
Definition u_range (r : Z * Z) : uexp :=
  XBoth (XPar (XGe (XVar "fieldNum") (num (fst r)))) (XPar (XLt (XVar "fieldNum") (num (snd r)))).
Fixpoint u_more (e : uexp) (l : list (Z * Z)) : uexp :=
  match l with
  | [] => e
  | r :: l' => u_more (XEither e (XPar (u_range r))) l'
  end.
Definition u_ranges (r : Z * Z) (l : list (Z * Z)) : uexp :=
  match l with [] => u_range r | _ => u_more (XPar (u_range r)) l end.

(** unmarshal.go:832-866: the default case. *)
Definition u_unknown (md : mdesc) : list ustmt :=
  let keep := (if md_keep md then [UKeep] else []) ++ [UAdd "iNdEx" (XVar "skippy")] in
  USet (LVar "iNdEx") (XVar "preIndex") :: u_skip (Some "l")
  ++ match md_ext md with
     | [] => keep
     | r :: l =>
         [UIf (u_ranges r l) (ublock [UExt; UIf XErr (URet RErr) USkip; UAdd "iNdEx" (XVar "skippy")]) (ublock keep)]
     end.

Fixpoint u_cases (md : mdesc) (l : list fdesc) : ustmt :=
  match l with
  | [] => UDefault (ublock (u_unknown md))
  | f :: l' => UCase (f_num f) (ublock (u_field (md_pool md) f ++ u_mark md f)) (u_cases md l')
  end.

(** unmarshal.go:869-885 *)
Definition u_missing (md : mdesc) (f : fdesc) : list ustmt :=
  if is_required f then
    let bit := field_bit (required_numbers md) (f_num f) in
    [UMissing (bit / 64) (Z.shiftl 1 (Z.of_nat (bit mod 64))) (URet (RRequired (f_num f)))]
  else [].

(** unmarshal.go:817-866: the body of the loop. *)
Definition u_step (md : mdesc) : ustmt :=
  ublock [UDef "preIndex" iNdEx; UVar "wire" YU64; u_varint (LVar "wire") YU64;
          UDef "fieldNum" (XConv (YOf 0 KInt32) (XShr (XVar "wire") (num 3)));
          UDef "wireType" (XConv YInt (XAnd (XVar "wire") (XLit "0x7" 7)));
          UIf (XEq (XVar "wireType") (num 4)) (URet REndGroup) USkip;
          UIf (XLe (XVar "fieldNum") (num 0)) (URet RIllegal) USkip;
          USwitch (u_cases md (md_fields md))].

(** unmarshal.go:797-892 message *)
Definition u_body (md : mdesc) : ustmt :=
  ublock ((match required_numbers md with
           | [] => []
           | l => [UHas (1 + (List.length l - 1) / 64)]
           end)
          ++ [UDef "l" XAll; UDef "iNdEx" (num 0); UWhile (XLt iNdEx (XVar "l")) (u_step md)]
          ++ flat_map (u_missing md) (md_fields md)
          ++ [UIf (XGt iNdEx (XVar "l")) (URet REOF) USkip; URet RNil]).

Definition meth_unmarshal : string := if unsafe then "UnmarshalVTUnsafe" else "UnmarshalVT".

(** The method printed for a message. *)
Definition gen_unmarshal (nm : names) (tname : Z -> string) (self : string) (md : mdesc) : string :=
  ("func(m*" ++ self ++ ")" ++ meth_unmarshal ++ "(dAtA[]byte)error{"
   ++ print_ustmt nm tname self meth_unmarshal (u_body md) ++ "}")%string.
End Gen.

(** The printed methods, which call each other (unmarshal.go:56-81, 797-892).  [al path m]: what
    FromVTPool returns for message [m] at [path], the iNdEx values of the enclosing calls;
    [spare]: unused capacity of lists; [base]: where the argument starts in the buffer of the
    outermost call.  [n] bounds the depth of calls. *)
Fixpoint run_unmarshal (sc : schema) (dp : nat -> dispatch) (unique : nat -> Z -> bool) (unsafe : bool)
  (al : list Z -> nat -> val) (spare : list Z -> Z -> nat -> Z) (n : nat) (path : list Z) (base : Z)
  (m : nat) (data : list Z) (v : val) : res val val :=
  match n with
  | O => NoFuel
  | S n' =>
      umethod sc m data base (fun i m' => al (i :: path) m') (spare path)
        (fun i m' buf x => run_unmarshal sc dp unique unsafe al spare n' (i :: path) (base + i) m' buf x)
        (11 + List.length data)
        (u_body dp (fun m' => md_pool (md_of sc m')) (unique m) unsafe (md_of sc m)) v
  end.
