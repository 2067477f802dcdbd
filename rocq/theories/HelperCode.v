(** The hand-written helper functions as Go code: /repo/protohelpers/protohelpers.go and KeySize of
    /repo/generator/helpers.go, statement by statement in the syntax of GoFun.v.  PropsFun.v
    compares their text with the files. *)
From Coq Require Import ZArith List Bool String.
From Verif Require Import Base Helpers GoFun.
Import ListNotations.
Open Scope string_scope.
Open Scope Z_scope.
Open Scope list_scope.

(** A function declaration.  Named results are only names here: every return statement of these
    functions lists its values. *)
Record hfun : Type := { h_name : string; h_params : list (string * string); h_results : string; h_body : hstmt }.
Definition print_hfun (f : hfun) : string :=
  ("func" ++ h_name f ++ "(" ++ String.concat "," (map (fun p => fst p ++ snd p) (h_params f)) ++ ")"
   ++ h_results f ++ "{" ++ print_hstmt (h_body f) ++ "}")%string.


(** protohelpers.go:35-37. *)
Definition SizeOfVarint_go : hfun :=
  {| h_name := "SizeOfVarint"; h_params := [("x", "uint64")]; h_results := "(nint)";
     h_body := HReturn [HValue (HBin HDiv (HPar (HBin HAdd (HLen64 (HBin HOr (HVar "x") (HLit "1"))) (HLit "6"))) (HLit "7"))] |}.

(** protohelpers.go:40-42. *)
Definition SizeOfZigzag_go : hfun :=
  {| h_name := "SizeOfZigzag"; h_params := [("x", "uint64")]; h_results := "(nint)";
     h_body := HReturn [HValue (HCall "SizeOfVarint" (HConv HTuint64
       (HBin HXor (HPar (HBin HShl (HVar "x") (HLit "1")))
                  (HConv HTuint64 (HPar (HBin HShr (HConv HTint64 (HVar "x")) (HLit "63")))))))] |}.

(** protohelpers.go:22-32. *)
Definition enc_cond : hexp := HBin HGe (HVar "v") (HBin HShl (HLit "1") (HLit "7")).
Definition enc_body : hstmt :=
  hblock [ HStore "dAtA" (HVar "offset") (HConv HTuint8 (HBin HOr (HBin HAnd (HVar "v") (HLit "0x7f")) (HLit "0x80")));
           HUpd "v" HShr (HLit "7");
           HInc "offset" ].
Definition enc_end : hstmt :=
  hblock [ HStore "dAtA" (HVar "offset") (HConv HTuint8 (HVar "v"));
           HReturn [HValue (HVar "base")] ].
Definition EncodeVarint_go : hfun :=
  {| h_name := "EncodeVarint"; h_params := [("dAtA", "[]byte"); ("offset", "int"); ("v", "uint64")]; h_results := "int";
     h_body := HSeq (HUpd "offset" HSub (HCall "SizeOfVarint" (HVar "v")))
              (HSeq (HDef "base" (HVar "offset"))
              (HSeq (HWhile enc_cond enc_body) enc_end)) |}.

(** protohelpers.go:45-122; the loop head shared by the three inner loops (lines 51-57, 68-74,
    84-90). *)
Definition eof : hstmt := HReturn [HValue (HLit "0"); HError EUnexpectedEOF "io.ErrUnexpectedEOF"].
Definition loop_head : hstmt :=
  hblock [ HIf (HBin HGe (HVar "shift") (HLit "64")) (HReturn [HValue (HLit "0"); HError EIntOverflow "ErrIntOverflow"]);
           HIf (HBin HGe (HVar "iNdEx") (HVar "l")) eof ].
Definition varint_for (a : hstmt) : hstmt := HFor "shift" (HConv HTuint (HLit "0")) HAdd (HLit "7") a.
(** Lines 58-63 and 91-96: [x] of type [t] gathers the bits. *)
Definition read_body (x : string) (t : hty) : hstmt :=
  HSeq loop_head
  (hblock [ HDef "b" (HIndex "dAtA" (HVar "iNdEx"));
            HInc "iNdEx";
            HUpd x HOr (HBin HShl (HPar (HBin HAnd (HConv t (HVar "b")) (HLit "0x7F"))) (HVar "shift"));
            HIf (HBin HLt (HVar "b") (HLit "0x80")) HBreak ]).
(** Lines 69-78. *)
Definition pass_body : hstmt :=
  HSeq loop_head
  (hblock [ HInc "iNdEx";
            HIf (HBin HLt (HIndex "dAtA" (HBin HSub (HVar "iNdEx") (HLit "1"))) (HLit "0x80")) HBreak ]).
(** Lines 66-113. *)
Definition skip_switch : hstmt :=
  HSwitch "wireType"
  (HCase 0 (varint_for pass_body)
  (HCase 1 (HUpd "iNdEx" HAdd (HLit "8"))
  (HCase 2 (HSeq (HDecl "length" HTint)
           (HSeq (varint_for (read_body "length" HTint))
           (hblock [ HIf (HBin HLt (HVar "length") (HLit "0")) (HReturn [HValue (HLit "0"); HError EInvalidLength "ErrInvalidLength"]);
                     HUpd "iNdEx" HAdd (HVar "length") ])))
  (HCase 3 (HInc "depth")
  (HCase 4 (hblock [ HIf (HBin HEq (HVar "depth") (HLit "0")) (HReturn [HValue (HLit "0"); HError EEndOfGroup "ErrUnexpectedEndOfGroup"]);
                     HDec "depth" ])
  (HCase 5 (HUpd "iNdEx" HAdd (HLit "4"))
  (HDefault (HReturn [HValue (HLit "0"); HError EWireType "fmt.Errorf(""proto:illegalwireType%d"",wireType)"])))))))).
(** Lines 114-119. *)
Definition skip_end : hstmt :=
  hblock [ HIf (HBin HLt (HVar "iNdEx") (HLit "0")) (HReturn [HValue (HLit "0"); HError EInvalidLength "ErrInvalidLength"]);
           HIf (HBin HEq (HVar "depth") (HLit "0")) (HReturn [HValue (HVar "iNdEx"); HNilErr]) ].
(** Lines 50-119. *)
Definition skip_cond : hexp := HBin HLt (HVar "iNdEx") (HVar "l").
Definition skip_body : hstmt :=
  HSeq (HDecl "wire" HTuint64)
 (HSeq (varint_for (read_body "wire" HTuint64))
 (HSeq (HDef "wireType" (HConv HTint (HBin HAnd (HVar "wire") (HLit "0x7"))))
 (HSeq skip_switch skip_end))).
Definition Skip_go : hfun :=
  {| h_name := "Skip"; h_params := [("dAtA", "[]byte")]; h_results := "(nint,errerror)";
     h_body := HSeq (HDef "l" (HLen "dAtA"))
              (HSeq (HDef "iNdEx" (HLit "0"))
              (HSeq (HDef "depth" (HLit "0"))
              (HSeq (HWhile skip_cond skip_body) eof))) |}.

(** generator/helpers.go:14-22. *)
Definition key_cond : hexp := HBin HGt (HVar "x") (HLit "127").
Definition key_body : hstmt := HUpd "x" HShr (HLit "7").
Definition KeySize_go : hfun :=
  {| h_name := "KeySize"; h_params := [("fieldNumber", "protoreflect.FieldNumber"); ("wireType", "protowire.Type")]; h_results := "int";
     h_body := hblock [ HDef "x" (HBin HOr (HBin HShl (HConv HTuint32 (HVar "fieldNumber")) (HLit "3")) (HConv HTuint32 (HVar "wireType")));
                        HDef "size" (HLit "0");
                        HForSet "size" (HLit "0") key_cond key_body;
                        HInc "size";
                        HReturn [HValue (HVar "size")] ] |}.

(** Running them.  [None] in a call: the callee panicked. *)
Definition no_call (f : string) (v : hval) : option hval := None.
Definition run_SizeOfVarint (x : Z) : option Z :=
  match hexec no_call 0 (h_body SizeOfVarint_go) [("x", HI HTuint64 x)] with
  | HDone [RInt n] _ => Some n
  | _ => None
  end.
(** The functions that the others call (protohelpers.go:23, 41). *)
Definition helper_call (f : string) (v : hval) : option hval :=
  match v with
  | HI HTuint64 x => if String.eqb f "SizeOfVarint" then option_map (HI HTint) (run_SizeOfVarint x) else None
  | _ => None
  end.
Definition run_SizeOfZigzag (x : Z) : option Z :=
  match hexec helper_call 0 (h_body SizeOfZigzag_go) [("x", HI HTuint64 x)] with
  | HDone [RInt n] _ => Some n
  | _ => None
  end.
(** EncodeVarint: the buffer afterwards and the result. *)
Definition enc_result (o : hout) : res unit (list Z * Z) :=
  match o with
  | HDone [RInt n] E => match hlookup "dAtA" E with Some (HB l) => Ok (l, n) | _ => Panic end
  | HMore => NoFuel
  | _ => Panic
  end.
Definition run_EncodeVarint (rounds : nat) (buf : list Z) (offset v : Z) : res unit (list Z * Z) :=
  enc_result (hexec helper_call rounds (h_body EncodeVarint_go) [("dAtA", HB buf); ("offset", HI HTint offset); ("v", HI HTuint64 v)]).
(** Skip: the results; [Panic] on a panic, [NoFuel] if a loop runs for more than [rounds] rounds. *)
Definition skip_result (o : hout) : res unit (list hret) :=
  match o with
  | HDone l _ => Ok l
  | HMore => NoFuel
  | _ => Panic
  end.
Definition run_Skip (rounds : nat) (data : list Z) : res unit (list hret) :=
  skip_result (hexec helper_call rounds (h_body Skip_go) [("dAtA", HB data)]).
Definition run_KeySize (rounds : nat) (num wt : Z) : option Z :=
  match hexec no_call rounds (h_body KeySize_go) [("fieldNumber", HI HTint32 num); ("wireType", HI HTint8 wt)] with
  | HDone [RInt n] _ => Some n
  | _ => None
  end.
