(** C65: the hand-written helper functions, as the Go code they are. *)
From Coq Require Import ZArith List Bool String Lia.
From Verif Require Import Base BaseFacts Helpers Marshal RecordSpec WireSpec VarintFacts SkipFacts HelperFacts PropsHelpers
  GoSyntax GoFun HelperCode HelperCodeFacts GoTextHelpers.
Import ListNotations.
Open Scope string_scope.
Open Scope Z_scope.
Open Scope list_scope.

(** SizeOfVarint(x) is the length of the varint of x, for every uint64. *)
Theorem C65_SizeOfVarint x : 0 <= x < 18446744073709551616 -> run_SizeOfVarint x = Some (zlen (varint x)).
Proof. intros H. rewrite run_SizeOfVarint_ok by assumption. now rewrite SizeOfVarint_len by lia. Qed.
Print Assumptions C65_SizeOfVarint.

(** SizeOfZigzag of the uint64 an int64 x converts to is the length of the varint of 2x, or of
    -2x-1 if x is negative. *)
Theorem C65_SizeOfZigzag x : -9223372036854775808 <= x < 9223372036854775808 ->
  run_SizeOfZigzag (x mod 18446744073709551616) = Some (zlen (varint (if x <? 0 then -2 * x - 1 else 2 * x))).
Proof.
  intros H. fold (u64 x). rewrite run_SizeOfZigzag_ok by apply u64_range.
  destruct (C04_zigzag64 x H) as (E & _ & ->). now rewrite E.
Qed.
Print Assumptions C65_SizeOfZigzag.

(** EncodeVarint(dAtA, offset, v) stores the varint of v so that it ends at offset, changes no
    other byte and returns where it starts; it panics exactly if the varint does not fit there.
    [rounds] bounds the rounds of the loop: 64 are enough. *)
Theorem C65_EncodeVarint rounds buf off v : (64 <= rounds)%nat -> 0 <= v < 18446744073709551616 ->
  -2305843009213693952 <= off < 2305843009213693952 ->
  run_EncodeVarint rounds buf off v =
  let n := zlen (varint v) in
  if (n <=? off) && (off <=? zlen buf)
  then Ok (firstn (Z.to_nat (off - n)) buf ++ varint v ++ skipn (Z.to_nat off) buf, off - n)
  else Panic.
Proof. intros R V O. rewrite run_EncodeVarint_ok by assumption. now apply C02_EncodeVarint. Qed.
Print Assumptions C65_EncodeVarint.

(** Skip never panics and never runs forever: on every input it returns a positive number and nil,
    or zero and an error. *)
Theorem C65_Skip_total rounds b : bytes_ok b = true -> small b -> (12 + List.length b <= rounds)%nat ->
  (exists n, run_Skip rounds b = Ok [RInt n; RNil] /\ 0 < n) \/ exists e, run_Skip rounds b = Ok [RInt 0; RErr e].
Proof.
  intros B S R. rewrite run_Skip_ok by assumption.
  destruct (C07_Skip_total b B S) as [(n & -> & N)|(e & ->)]; cbn [skip_returns]; eauto.
Qed.
Print Assumptions C65_Skip_total.

(** A complete record at the start of the input is skipped exactly, whatever follows. *)
Theorem C65_Skip_complete rounds matching num wt r s : record matching num wt r -> bytes_ok (r ++ s) = true -> small (r ++ s) ->
  (12 + List.length (r ++ s) <= rounds)%nat -> run_Skip rounds (r ++ s) = Ok [RInt (zlen r); RNil].
Proof.
  intros H B S R. rewrite run_Skip_ok by assumption. now rewrite (C06_Skip_complete matching num wt r s H S).
Qed.
Print Assumptions C65_Skip_complete.

(** What it skips without an error, if it ends within the input, is a complete record (whose groups
    may be closed by another number, as C05 says). *)
Theorem C65_Skip_sound rounds b n : bytes_ok b = true -> small b -> (12 + List.length b <= rounds)%nat ->
  run_Skip rounds b = Ok [RInt n; RNil] -> n <= zlen b ->
  exists r s num wt, b = r ++ s /\ n = zlen r /\ record false num wt r.
Proof.
  intros B S R H L. rewrite run_Skip_ok in H by assumption. injection H as H.
  assert (Skip b = Ok n) as E by (destruct (Skip b); cbn in H; try discriminate; now injection H as ->).
  exact (C05_Skip_sound b n B S E L).
Qed.
Print Assumptions C65_Skip_sound.

(** KeySize is the length of the tag, for every field number and wire type. *)
Theorem C65_KeySize rounds num wt : (6 <= rounds)%nat -> 1 <= num < 536870912 -> 0 <= wt < 8 ->
  run_KeySize rounds num wt = Some (zlen (tag num wt)).
Proof. intros R N W. rewrite run_KeySize_ok by assumption. f_equal. now apply C46_KeySize. Qed.
Print Assumptions C65_KeySize.

(** The functions of Helpers.v, on which the other theorems rest, are those of this code. *)
Theorem C65_model : (forall x, 0 <= x < 18446744073709551616 -> run_SizeOfVarint x = Some (SizeOfVarint x)) /\
  (forall x, 0 <= x < 18446744073709551616 -> run_SizeOfZigzag x = Some (SizeOfZigzag x)) /\
  (forall rounds buf off v, (64 <= rounds)%nat -> 0 <= v < 18446744073709551616 -> -2305843009213693952 <= off < 2305843009213693952 ->
     run_EncodeVarint rounds buf off v = EncodeVarint buf off v) /\
  (forall rounds b, bytes_ok b = true -> small b -> (12 + List.length b <= rounds)%nat ->
     run_Skip rounds b = match Skip b with Ok n => Ok [RInt n; RNil] | Err e _ => Ok [RInt 0; RErr e] | Panic => Panic | NoFuel => NoFuel end) /\
  (forall rounds num wt, (6 <= rounds)%nat -> run_KeySize rounds num wt = Some (KeySize num wt)).
Proof.
  split; [exact run_SizeOfVarint_ok|]. split; [exact run_SizeOfZigzag_ok|]. split; [exact run_EncodeVarint_ok|]. split.
  - intros rounds b B S R. rewrite run_Skip_ok by assumption. destruct (C07_Skip_total b B S) as [(n & -> & N)|(e & ->)]; reflexivity.
  - exact run_KeySize_ok.
Qed.
Print Assumptions C65_model.

(** The programs on examples: a group with a field, a length of 2^63, an end of group at the start, ten
    bytes of continuation, a wire type 6; a varint of two bytes in a buffer of four. *)
Example C65_nonvacuous :
  run_Skip 20 [35; 8; 1; 36; 255] = Ok [RInt 4; RNil] /\
  run_Skip 30 [10; 128; 128; 128; 128; 128; 128; 128; 128; 128; 1] = Ok [RInt 0; RErr EInvalidLength] /\
  run_Skip 20 [12] = Ok [RInt 0; RErr EEndOfGroup] /\
  run_Skip 30 [8; 255; 255; 255; 255; 255; 255; 255; 255; 255; 255; 1] = Ok [RInt 0; RErr EIntOverflow] /\
  run_Skip 20 [14] = Ok [RInt 0; RErr EWireType] /\
  run_EncodeVarint 64 [9; 9; 9; 9] 3 300 = Ok ([9; 172; 2; 9], 1) /\
  run_EncodeVarint 64 [9; 9] 1 300 = Panic /\
  run_SizeOfVarint 18446744073709551615 = Some 10 /\ run_SizeOfZigzag 18446744073709551615 = Some 1 /\
  run_KeySize 6 16 2 = Some 2.
Proof. vm_compute. repeat split. Qed.

(** The text of the programs is the text of the files, but for white space; and what the Go parser
    reads in that text are these programs, as far as the precedence of operators goes. *)
Example C65_text :
  print_hfun EncodeVarint_go = squeeze text_EncodeVarint /\ print_hfun SizeOfVarint_go = squeeze text_SizeOfVarint /\
  print_hfun SizeOfZigzag_go = squeeze text_SizeOfZigzag /\ print_hfun Skip_go = squeeze text_Skip /\
  print_hfun KeySize_go = squeeze text_KeySize.
Proof. vm_compute. repeat split. Qed.
Example C65_parses : forallb (fun f => parses_stmt (h_body f)) [EncodeVarint_go; SizeOfVarint_go; SizeOfZigzag_go; Skip_go; KeySize_go] = true.
Proof. reflexivity. Qed.

(** The semantics notices a wrong program: with a mask of 0x3f in line 26, the varint of 300 is right
    and that of 448 is not. *)
Example C65_faults :
  enc_result (hexec helper_call 64 (HSeq (HWhile enc_cond
     (hblock [ HStore "dAtA" (HVar "offset") (HConv HTuint8 (HBin HOr (HBin HAnd (HVar "v") (HLit "0x3f")) (HLit "0x80")));
               HUpd "v" HShr (HLit "7"); HInc "offset" ])) enc_end) (enc_env [9; 9; 9; 9] 1 300 1)) = Ok ([9; 172; 2; 9], 1) /\
  enc_result (hexec helper_call 64 (HSeq (HWhile enc_cond
     (hblock [ HStore "dAtA" (HVar "offset") (HConv HTuint8 (HBin HOr (HBin HAnd (HVar "v") (HLit "0x3f")) (HLit "0x80")));
               HUpd "v" HShr (HLit "7"); HInc "offset" ])) enc_end) (enc_env [9; 9; 9; 9] 1 448 1)) <> EncodeVarint [9; 9; 9; 9] 3 448.
Proof. split; [reflexivity|]. vm_compute. discriminate. Qed.
