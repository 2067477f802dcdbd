(** The helper functions as Go code (HelperCode.v) compute what the functions of Helpers.v do. *)
From Coq Require Import ZArith List Bool String Lia.
From Verif Require Import Base BaseFacts Helpers RecordSpec VarintFacts SkipFacts HelperFacts GoFun HelperCode.
From Verif Require GenUnmarshalFacts.
Import ListNotations.
Open Scope string_scope.
Open Scope Z_scope.
Open Scope list_scope.

Ltac lits := repeat match goal with |- context [literal ?s] => let v := eval vm_compute in (literal s) in change (literal s) with v end.
Ltac run := cbv beta iota delta [hexec hblock hupdate hset heval hlookup hassign hbin harith hcompare hty_eqb String.eqb Ascii.eqb Bool.eqb
                hobind option_map hcond hint hdefault hresults h_body enc_cond enc_body enc_end].
Ltac go := run; lits; run; cbn [hleave skipn List.length Nat.sub Z.eqb Pos.eqb Z.ltb Z.compare Pos.compare Pos.compare_cont]; run.

Lemma uint64_lor a b : 0 <= a < 18446744073709551616 -> 0 <= b < 18446744073709551616 -> 0 <= Z.lor a b < 18446744073709551616.
Proof.
  intros A B. rewrite <- (u64_id a A), <- (u64_id b B), <- u64_lor. apply u64_range.
Qed.

Lemma Len64_range x : 0 <= x < 18446744073709551616 -> 0 <= Len64 x <= 64.
Proof.
  intros H. unfold Len64. destruct (x <=? 0) eqn:L; [lia|].
  assert (Z.log2 x < 64) by (apply Z.log2_lt_pow2; [lia|]; change (2 ^ 64) with 18446744073709551616; lia).
  pose proof (Z.log2_nonneg x). lia.
Qed.

Lemma run_SizeOfVarint_ok x : 0 <= x < 18446744073709551616 -> run_SizeOfVarint x = Some (SizeOfVarint x).
Proof.
  intros H. unfold run_SizeOfVarint, SizeOfVarint_go. go. cbn [wrap].
  pose proof (uint64_lor x 1 H ltac:(lia)) as L. rewrite (u64_id _ L). pose proof (Len64_range _ L).
  rewrite (s64_id (Len64 _ + 6)) by lia.
  rewrite Z.quot_div_nonneg by lia.
  rewrite s64_id; [reflexivity|]. pose proof (Z.div_pos (Len64 (Z.lor x 1) + 6) 7).
  pose proof (Z.div_le_upper_bound (Len64 (Z.lor x 1) + 6) 7 100). lia.
Qed.

Lemma run_SizeOfZigzag_ok x : 0 <= x < 18446744073709551616 -> run_SizeOfZigzag x = Some (SizeOfZigzag x).
Proof.
  intros H. unfold run_SizeOfZigzag, SizeOfZigzag_go. go. cbn [wrap helper_call String.eqb Ascii.eqb Bool.eqb].
  rewrite run_SizeOfVarint_ok by apply u64_range.
  cbn [option_map hint]. unfold SizeOfZigzag. do 2 f_equal.
  assert (forall a b, u64 (Z.lxor (u64 a) (u64 b)) = Z.lxor (u64 a) (u64 b)) as X.
  { intros a b. unfold u64. change 18446744073709551616 with (2 ^ 64). rewrite <- !Z.land_ones by lia.
    apply Z.bits_inj'. intros n Hn. rewrite !Z.land_spec, !Z.lxor_spec, !Z.land_spec.
    destruct (Z.testbit (Z.ones 64) n); rewrite ?andb_true_r, ?andb_false_r; reflexivity. }
  rewrite u64_s64. rewrite !X. reflexivity.
Qed.

Definition enc_env (buf : list Z) (off v base : Z) : henv :=
  [("base", HI HTint base); ("dAtA", HB buf); ("offset", HI HTint off); ("v", HI HTuint64 v)].

Lemma enc_cond_ok call buf off v base : hcond call enc_cond (enc_env buf off v base) = Some (128 <=? v).
Proof. unfold hcond, enc_env. go. reflexivity. Qed.

Lemma land127 v : Z.land v 127 = v mod 128.
Proof. change 127 with (Z.ones 7). now rewrite Z.land_ones by lia. Qed.

Lemma enc_body_ok call r buf off v base : 0 <= v < 18446744073709551616 ->
  -4611686018427387904 <= off < 4611686018427387904 ->
  hexec call r enc_body (enc_env buf off v base)
  = match zset buf off (Z.lor (Z.land v 127) 128) with
    | Some buf' => HNext (enc_env buf' (off + 1) (Z.shiftr v 7) base)
    | None => HPanic
    end.
Proof.
  intros V O. unfold enc_env. go. cbn [wrap]. pose proof (Z.mod_pos_bound v 128 ltac:(lia)).
  rewrite land127. rewrite (u64_id (v mod 128)) by lia. rewrite lor128 in * by lia.
  rewrite (u64_id (v mod 128 + 128)) by lia. rewrite (Z.mod_small (v mod 128 + 128)) by lia.
  destruct (zset buf off (v mod 128 + 128)) as [buf'|]; [|reflexivity]. go. cbn [wrap].
  rewrite Z.shiftr_div_pow2 by lia. change (2 ^ 7) with 128.
  pose proof (Z.div_pos v 128). pose proof (Z.div_le_upper_bound v 128 v).
  rewrite (u64_id (v / 128)) by lia. rewrite (s64_id (off + 1)) by lia. reflexivity.
Qed.

Lemma enc_end_ok call r buf off v base : 0 <= v < 128 ->
  enc_result (hexec call r enc_end (enc_env buf off v base))
  = match zset buf off v with
    | Some buf' => Ok (buf', base)
    | None => Panic
    end.
Proof.
  intros V. unfold enc_env. go. cbn [wrap]. rewrite Z.mod_small by lia.
  destruct (zset buf off v) as [buf'|]; [|reflexivity]. go. reflexivity.
Qed.

Lemma enc_loop call r base : forall fuel k buf off v, (fuel <= k)%nat -> 0 <= v < 18446744073709551616 ->
  -4611686018427387904 <= off -> off + Z.of_nat fuel < 4611686018427387904 -> varint_loop fuel buf off v <> NoFuel ->
  enc_result (match hloop k (hcond call enc_cond) (hexec call r enc_body) HNext (enc_env buf off v base) with
              | HNext E1 => hexec call r enc_end E1
              | x => x
              end)
  = (do r <- varint_loop fuel buf off v; Ok (fst r, base)).
Proof.
  induction fuel as [|fuel IH]; intros k buf off v K V O1 O2 N; [now cbn in N|].
  destruct k as [|k]; [lia|]. cbn [hloop varint_loop] in *. rewrite enc_cond_ok.
  destruct (128 <=? v) eqn:L.
  - rewrite enc_body_ok by lia.
    destruct (zset buf off (Z.lor (Z.land v 127) 128)) as [buf'|] eqn:Zs; [|reflexivity]. cbn [orpanic rbind] in N |- *.
    rewrite <- IH with (k := k); [reflexivity|lia| |lia..|assumption].
    rewrite Z.shiftr_div_pow2 by lia. change (2 ^ 7) with 128.
    pose proof (Z.div_pos v 128). pose proof (Z.div_le_upper_bound v 128 v). lia.
  - rewrite enc_end_ok by lia.
    destruct (zset buf off v) as [buf'|]; reflexivity.
Qed.

Lemma SizeOfVarint_range v : 0 <= v < 18446744073709551616 -> 1 <= SizeOfVarint v <= 10.
Proof.
  intros V. rewrite SizeOfVarint_len by lia. pose proof (varint_pos v ltac:(lia)). pose proof (varint_len64 v V). lia.
Qed.

Lemma run_EncodeVarint_ok rounds buf off v : (64 <= rounds)%nat -> 0 <= v < 18446744073709551616 ->
  -2305843009213693952 <= off < 2305843009213693952 -> run_EncodeVarint rounds buf off v = EncodeVarint buf off v.
Proof.
  intros R V O. unfold run_EncodeVarint, EncodeVarint_go.
  pose proof (SizeOfVarint_range v V) as S.
  cbn [h_body hexec hupdate heval hlookup hobind String.eqb Ascii.eqb Bool.eqb helper_call].
  rewrite run_SizeOfVarint_ok by assumption. cbn [option_map hobind hbin hty_eqb harith hset hupdate hassign wrap String.eqb Ascii.eqb Bool.eqb heval hlookup hdefault].
  rewrite (s64_id (off - SizeOfVarint v)) by lia.
  pose proof (Z.log2_nonneg v).
  assert (varint_fuel v <= 64)%nat.
  { unfold varint_fuel. destruct (Z.eq_dec v 0) as [->|NZ]; [cbn; lia|].
    assert (Z.log2 v < 64) by (apply Z.log2_lt_pow2; [lia|]; change (2 ^ 64) with 18446744073709551616; lia). lia. }
  unfold EncodeVarint. apply enc_loop; try lia.
  pose proof (EncodeVarint_exact buf off v V) as X. unfold EncodeVarint in X. cbv zeta in X.
  destruct (varint_loop _ _ _ _); try discriminate. destruct (_ && _) in X; discriminate.
Qed.

(** ** Skip *)
Definition skip_env (data : list Z) (i depth : Z) : henv :=
  [("depth", HI HTint depth); ("iNdEx", HI HTint i); ("l", HI HTint (zlen data)); ("dAtA", HB data)].
Definition wire_env (data : list Z) (i depth acc shift : Z) : henv :=
  ("shift", HI HTuint shift) :: ("wire", HI HTuint64 acc) :: skip_env data i depth.
Definition pass_env (data : list Z) (i depth wire wt shift : Z) : henv :=
  ("shift", HI HTuint shift) :: ("switch", HI HTint wt) :: ("wireType", HI HTint wt) :: ("wire", HI HTuint64 wire) :: skip_env data i depth.
Definition len_env (data : list Z) (i depth wire wt acc shift : Z) : henv :=
  ("shift", HI HTuint shift) :: ("length", HI HTint acc) :: ("switch", HI HTint wt) :: ("wireType", HI HTint wt) :: ("wire", HI HTuint64 wire) :: skip_env data i depth.

(** Where a loop that reads a varint ends. *)
Definition read_out (r : res unit (Z * Z)) (env : Z -> Z -> Z -> henv) (o : hout) : Prop :=
  match r with
  | Ok (z, j) => exists s, o = HNext (env j z s)
  | Err e _ => exists E, o = HDone [RInt 0; RErr e] E
  | _ => False
  end.

Lemma byte_at data i b : bytes_ok data = true -> zget data i = Some b -> 0 <= b < 256 /\ 0 <= i < zlen data.
Proof.
  intros B Z. unfold zget in Z. destruct (0 <=? i) eqn:E1, (i <? zlen data) eqn:E2; cbn in Z; try discriminate.
  apply nth_error_In in Z. unfold bytes_ok in B. rewrite forallb_forall in B. specialize (B _ Z). unfold is_byte in B. lia.
Qed.

(** One round of the loop of lines 51-64. *)
Lemma wire_round call r data i depth acc shift : bytes_ok data = true -> small data -> 0 <= i -> 0 <= shift <= 70 ->
  0 <= acc < 18446744073709551616 ->
  hexec call r (read_body "wire" HTuint64) (wire_env data i depth acc shift)
  = if 64 <=? shift then HDone [RInt 0; RErr EIntOverflow] (wire_env data i depth acc shift)
    else if zlen data <=? i then HDone [RInt 0; RErr EUnexpectedEOF] (wire_env data i depth acc shift)
    else match zget data i with
         | Some b =>
             let acc' := Z.lor acc (u64 (Z.shiftl (Z.land b 127) shift)) in
             if b <? 128 then HBroke (("b", HI HTuint8 b) :: wire_env data (i + 1) depth acc' shift)
             else HNext (("b", HI HTuint8 b) :: wire_env data (i + 1) depth acc' shift)
         | None => HPanic
         end.
Proof.
  intros B Sm I Sh A. unfold small in Sm. unfold read_body, loop_head, eof, wire_env, skip_env. go.
  destruct (64 <=? shift) eqn:E1; [reflexivity|]. go.
  destruct (zlen data <=? i) eqn:E2; [reflexivity|]. go.
  destruct (zget data i) as [b|] eqn:Z; [|reflexivity]. go. cbn [wrap].
  destruct (byte_at _ _ _ B Z) as [Hb Hi]. rewrite (s64_id (i + 1)) by lia. go. cbn [wrap].
  rewrite (u64_id b) by lia. rewrite land127. pose proof (Z.mod_pos_bound b 128 ltac:(lia)).
  rewrite (u64_id (b mod 128)) by lia.
  replace (shift <? 0) with false by lia. go. cbn [wrap].
  rewrite u64_lor, (u64_id acc) by assumption.
  rewrite (u64_id (u64 _)) by apply u64_range.
  destruct (b <? 128); reflexivity.
Qed.

(** One round of the loop of lines 84-97. *)
Lemma len_round call r data i depth wire wt acc shift : bytes_ok data = true -> small data -> 0 <= i -> 0 <= shift <= 70 ->
  -9223372036854775808 <= acc < 9223372036854775808 ->
  hexec call r (read_body "length" HTint) (len_env data i depth wire wt acc shift)
  = if 64 <=? shift then HDone [RInt 0; RErr EIntOverflow] (len_env data i depth wire wt acc shift)
    else if zlen data <=? i then HDone [RInt 0; RErr EUnexpectedEOF] (len_env data i depth wire wt acc shift)
    else match zget data i with
         | Some b =>
             let acc' := Z.lor acc (s64 (Z.shiftl (Z.land b 127) shift)) in
             if b <? 128 then HBroke (("b", HI HTuint8 b) :: len_env data (i + 1) depth wire wt acc' shift)
             else HNext (("b", HI HTuint8 b) :: len_env data (i + 1) depth wire wt acc' shift)
         | None => HPanic
         end.
Proof.
  intros B Sm I Sh A. unfold small in Sm. unfold read_body, loop_head, eof, len_env, skip_env. go.
  destruct (64 <=? shift) eqn:E1; [reflexivity|]. go.
  destruct (zlen data <=? i) eqn:E2; [reflexivity|]. go.
  destruct (zget data i) as [b|] eqn:Z; [|reflexivity]. go. cbn [wrap].
  destruct (byte_at _ _ _ B Z) as [Hb Hi]. rewrite (s64_id (i + 1)) by lia. go. cbn [wrap].
  rewrite (s64_id b) by lia. rewrite land127. pose proof (Z.mod_pos_bound b 128 ltac:(lia)).
  rewrite (s64_id (b mod 128)) by lia.
  replace (shift <? 0) with false by lia. go. cbn [wrap].
  rewrite s64_lor, (s64_id acc) by assumption.
  rewrite (s64_id (s64 _)) by apply s64_range.
  destruct (b <? 128); reflexivity.
Qed.

(** One round of the loop of lines 68-79. *)
Lemma pass_round call r data i depth wire wt shift : bytes_ok data = true -> small data -> 0 <= i -> 0 <= shift <= 70 ->
  hexec call r pass_body (pass_env data i depth wire wt shift)
  = if 64 <=? shift then HDone [RInt 0; RErr EIntOverflow] (pass_env data i depth wire wt shift)
    else if zlen data <=? i then HDone [RInt 0; RErr EUnexpectedEOF] (pass_env data i depth wire wt shift)
    else match zget data i with
         | Some b =>
             if b <? 128 then HBroke (pass_env data (i + 1) depth wire wt shift)
             else HNext (pass_env data (i + 1) depth wire wt shift)
         | None => HPanic
         end.
Proof.
  intros B Sm I Sh. unfold small in Sm. unfold pass_body, loop_head, eof, pass_env, skip_env. go.
  destruct (64 <=? shift) eqn:E1; [reflexivity|]. go.
  destruct (zlen data <=? i) eqn:E2; [reflexivity|]. go. cbn [wrap].
  rewrite (s64_id (i + 1)) by lia. replace (i + 1 - 1) with i by lia. rewrite (s64_id i) by lia.
  destruct (zget data i) as [b|] eqn:Z; [|reflexivity].
  destruct (b <? 128); reflexivity.
Qed.

(** The loops. *)
Definition shift_post (call : string -> hval -> option hval) (E : henv) : hout := hupdate "shift" HAdd (heval call (HLit "7") E) E.

Lemma wire_loop call r data depth : bytes_ok data = true -> small data ->
  forall fuel k i acc shift, (fuel <= k)%nat -> 0 <= i -> 0 <= shift <= 70 -> 77 <= shift + 7 * Z.of_nat fuel ->
  0 <= acc < 18446744073709551616 ->
  read_out (read_varint fuel u64 data i shift acc) (fun j z s => wire_env data j depth z s)
    (hloop k (fun _ => Some true) (hexec call r (read_body "wire" HTuint64)) (shift_post call) (wire_env data i depth acc shift)).
Proof.
  intros B Sm. induction fuel as [|fuel IH]; intros k i acc shift K I Sh F A; [lia|].
  destruct k as [|k]; [lia|]. cbn [read_varint hloop]. rewrite wire_round by assumption.
  destruct (64 <=? shift) eqn:E1; [cbn; eauto|].
  destruct (zlen data <=? i) eqn:E2; [cbn; eauto|].
  destruct (zget_some data i) as (b & Z); [lia|]. rewrite Z. cbn [orpanic rbind]. cbv zeta.
  destruct (b <? 128); [cbn; eauto|].
  change (hleave (wire_env data i depth acc shift) (("b", HI HTuint8 b) :: wire_env data (i + 1) depth (Z.lor acc (u64 (Z.shiftl (Z.land b 127) shift))) shift))
    with (wire_env data (i + 1) depth (Z.lor acc (u64 (Z.shiftl (Z.land b 127) shift))) shift).
  assert (shift_post call (wire_env data (i + 1) depth (Z.lor acc (u64 (Z.shiftl (Z.land b 127) shift))) shift)
          = HNext (wire_env data (i + 1) depth (Z.lor acc (u64 (Z.shiftl (Z.land b 127) shift))) (shift + 7))) as ->.
  { unfold shift_post, wire_env. go. cbn [wrap]. rewrite u64_id by lia. reflexivity. }
  apply IH; try lia. apply uint64_lor; [assumption|apply u64_range].
Qed.

Lemma len_loop call r data depth wire wt : bytes_ok data = true -> small data ->
  forall fuel k i acc shift, (fuel <= k)%nat -> 0 <= i -> 0 <= shift <= 70 -> 77 <= shift + 7 * Z.of_nat fuel ->
  -9223372036854775808 <= acc < 9223372036854775808 ->
  read_out (read_varint fuel s64 data i shift acc) (fun j z s => len_env data j depth wire wt z s)
    (hloop k (fun _ => Some true) (hexec call r (read_body "length" HTint)) (shift_post call) (len_env data i depth wire wt acc shift)).
Proof.
  intros B Sm. induction fuel as [|fuel IH]; intros k i acc shift K I Sh F A; [lia|].
  destruct k as [|k]; [lia|]. cbn [read_varint hloop]. rewrite len_round by assumption.
  destruct (64 <=? shift) eqn:E1; [cbn; eauto|].
  destruct (zlen data <=? i) eqn:E2; [cbn; eauto|].
  destruct (zget_some data i) as (b & Z); [lia|]. rewrite Z. cbn [orpanic rbind]. cbv zeta.
  destruct (b <? 128); [cbn; eauto|].
  set (acc' := Z.lor acc (s64 (Z.shiftl (Z.land b 127) shift))).
  change (hleave (len_env data i depth wire wt acc shift) (("b", HI HTuint8 b) :: len_env data (i + 1) depth wire wt acc' shift))
    with (len_env data (i + 1) depth wire wt acc' shift).
  assert (shift_post call (len_env data (i + 1) depth wire wt acc' shift)
          = HNext (len_env data (i + 1) depth wire wt acc' (shift + 7))) as ->.
  { unfold shift_post, len_env. go. cbn [wrap]. rewrite u64_id by lia. reflexivity. }
  apply IH; try lia. unfold acc'. rewrite <- (s64_id acc A), <- s64_lor. apply s64_range.
Qed.

Lemma pass_loop call r data depth wire wt : bytes_ok data = true -> small data ->
  forall fuel k i shift, (fuel <= k)%nat -> 0 <= i -> 0 <= shift <= 70 -> 77 <= shift + 7 * Z.of_nat fuel ->
  read_out (do j <- skip_varint fuel data i shift; Ok (0, j)) (fun j _ s => pass_env data j depth wire wt s)
    (hloop k (fun _ => Some true) (hexec call r pass_body) (shift_post call) (pass_env data i depth wire wt shift)).
Proof.
  intros B Sm. induction fuel as [|fuel IH]; intros k i shift K I Sh F; [lia|].
  destruct k as [|k]; [lia|]. cbn [skip_varint hloop]. rewrite pass_round by assumption.
  destruct (64 <=? shift) eqn:E1; [cbn; eauto|].
  destruct (zlen data <=? i) eqn:E2; [cbn; eauto|].
  destruct (zget_some data i) as (b & Z); [lia|]. rewrite Z. cbn [orpanic rbind]. cbv zeta.
  destruct (b <? 128); [cbn; eauto|].
  change (hleave (pass_env data i depth wire wt shift) (pass_env data (i + 1) depth wire wt shift))
    with (pass_env data (i + 1) depth wire wt shift).
  assert (shift_post call (pass_env data (i + 1) depth wire wt shift)
          = HNext (pass_env data (i + 1) depth wire wt (shift + 7))) as ->.
  { unfold shift_post, pass_env. go. cbn [wrap]. rewrite u64_id by lia. reflexivity. }
  apply IH; lia.
Qed.

(** Where a statement with a fallible result ends. *)
Definition ends {A} (r : res unit A) (env : A -> henv) (o : hout) : Prop :=
  match r with
  | Ok a => o = HNext (env a)
  | Err e _ => exists E, o = HDone [RInt 0; RErr e] E
  | _ => False
  end.

Lemma wire_ends call r data i depth : bytes_ok data = true -> small data -> (11 <= r)%nat -> 0 <= i ->
  ends (read_varint 11 u64 data i 0 0) (fun p => ("wire", HI HTuint64 (fst p)) :: skip_env data (snd p) depth)
    (hexec call r (varint_for (read_body "wire" HTuint64)) (("wire", HI HTuint64 0) :: skip_env data i depth)).
Proof.
  intros B Sm R I. pose proof (wire_loop call r data depth B Sm 11 r i 0 0 R I ltac:(lia) ltac:(lia) ltac:(lia)) as L.
  unfold varint_for. cbn [hexec]. change (heval call (HConv HTuint (HLit "0")) (("wire", HI HTuint64 0) :: skip_env data i depth)) with (Some (HI HTuint 0)).
  cbv iota. cbn [hdefault]. fold (wire_env data i depth 0 0).
  change (fun E1 : henv => hupdate "shift" HAdd (heval call (HLit "7") E1) E1) with (shift_post call).
  unfold read_out in L. unfold ends. destruct (read_varint 11 u64 data i 0 0) as [[z j]|e []| |]; try contradiction.
  - destruct L as [s ->]. reflexivity.
  - destruct L as [E ->]. eauto.
Qed.

Lemma len_ends call r data i depth wire wt : bytes_ok data = true -> small data -> (11 <= r)%nat -> 0 <= i ->
  ends (read_varint 11 s64 data i 0 0)
    (fun p => ("length", HI HTint (fst p)) :: ("switch", HI HTint wt) :: ("wireType", HI HTint wt) :: ("wire", HI HTuint64 wire) :: skip_env data (snd p) depth)
    (hexec call r (varint_for (read_body "length" HTint))
      (("length", HI HTint 0) :: ("switch", HI HTint wt) :: ("wireType", HI HTint wt) :: ("wire", HI HTuint64 wire) :: skip_env data i depth)).
Proof.
  intros B Sm R I. pose proof (len_loop call r data depth wire wt B Sm 11 r i 0 0 R I ltac:(lia) ltac:(lia) ltac:(lia)) as L.
  unfold varint_for. cbn [hexec]. match goal with |- context [heval call (HConv HTuint (HLit "0")) ?E] => change (heval call (HConv HTuint (HLit "0")) E) with (Some (HI HTuint 0)) end.
  cbv iota. cbn [hdefault]. fold (len_env data i depth wire wt 0 0).
  change (fun E1 : henv => hupdate "shift" HAdd (heval call (HLit "7") E1) E1) with (shift_post call).
  unfold read_out in L. unfold ends. destruct (read_varint 11 s64 data i 0 0) as [[z j]|e []| |]; try contradiction.
  - destruct L as [s ->]. reflexivity.
  - destruct L as [E ->]. eauto.
Qed.

Lemma pass_ends call r data i depth wire wt : bytes_ok data = true -> small data -> (11 <= r)%nat -> 0 <= i ->
  ends (skip_varint 11 data i 0)
    (fun j => ("switch", HI HTint wt) :: ("wireType", HI HTint wt) :: ("wire", HI HTuint64 wire) :: skip_env data j depth)
    (hexec call r (varint_for pass_body) (("switch", HI HTint wt) :: ("wireType", HI HTint wt) :: ("wire", HI HTuint64 wire) :: skip_env data i depth)).
Proof.
  intros B Sm R I. pose proof (pass_loop call r data depth wire wt B Sm 11 r i 0 R I ltac:(lia) ltac:(lia)) as L.
  unfold varint_for. cbn [hexec]. match goal with |- context [heval call (HConv HTuint (HLit "0")) ?E] => change (heval call (HConv HTuint (HLit "0")) E) with (Some (HI HTuint 0)) end.
  cbv iota. cbn [hdefault]. fold (pass_env data i depth wire wt 0).
  change (fun E1 : henv => hupdate "shift" HAdd (heval call (HLit "7") E1) E1) with (shift_post call).
  unfold read_out in L. unfold ends. destruct (skip_varint 11 data i 0) as [j|e []| |]; cbn [rbind] in L; try contradiction.
  - destruct L as [s ->]. reflexivity.
  - destruct L as [E ->]. eauto.
Qed.

(** Lines 66-113. *)
Lemma switch_ends call r data i depth wire wt : bytes_ok data = true -> small data -> (11 <= r)%nat -> 0 <= i <= zlen data ->
  0 <= wt < 8 -> 0 <= depth <= zlen data ->
  ends (skip_value data wt i depth)
    (fun p => ("wireType", HI HTint wt) :: ("wire", HI HTuint64 wire) :: skip_env data (fst p) (snd p))
    (hexec call r skip_switch (("wireType", HI HTint wt) :: ("wire", HI HTuint64 wire) :: skip_env data i depth)).
Proof.
  intros B Sm R I W D. pose proof Sm as Sm'. unfold small in Sm'.
  assert (wt = 0 \/ wt = 1 \/ wt = 2 \/ wt = 3 \/ wt = 4 \/ wt = 5 \/ wt = 6 \/ wt = 7) as C by lia.
  destruct C as [ -> | [ -> | [ -> | [ -> | [ -> | [ -> | C ]]]]]].
  - pose proof (pass_ends call r data i depth wire 0 B Sm R ltac:(lia)) as P. unfold skip_switch. unfold skip_value.
    cbn [hexec hlookup String.eqb Ascii.eqb Bool.eqb Z.eqb].
    unfold ends in P |- *. destruct (skip_varint 11 data i 0) as [j|e []| |]; cbn [rbind]; try contradiction.
    + rewrite P. reflexivity.
    + destruct P as [E ->]. eauto.
  - unfold skip_switch, skip_env, ends, skip_value. go. reflexivity.
  - pose proof (len_ends call r data i depth wire 2 B Sm R ltac:(lia)) as P. unfold skip_switch. unfold skip_value.
    cbn [hexec hlookup String.eqb Ascii.eqb Bool.eqb Z.eqb Pos.eqb].
    unfold ends in P |- *. destruct (read_varint 11 s64 data i 0 0) as [[z j]|e []| |]; cbn [rbind]; try contradiction.
    + rewrite P. cbn [fst snd]. unfold skip_env. go. destruct (z <? 0) eqn:N; [eauto|]. go. reflexivity.
    + destruct P as [E ->]. eauto.
  - unfold skip_switch, skip_env, ends, skip_value. go. cbn [wrap]. rewrite s64_id by lia. reflexivity.
  - unfold skip_switch, skip_env, skip_value. go. destruct (depth =? 0) eqn:N; [cbn; eauto|].
    cbn [ends]. go. cbn [wrap]. rewrite s64_id by lia. reflexivity.
  - unfold skip_switch, skip_env, ends, skip_value. go. reflexivity.
  - destruct C as [-> | ->]; unfold skip_switch, skip_env, ends, skip_value; go; eauto.
Qed.

Lemma skip_depth data wt i depth i2 d2 : skip_value data wt i depth = Ok (i2, d2) -> 0 <= depth -> 0 <= d2 <= depth + 1.
Proof.
  intros H D. unfold skip_value in H.
  destruct wt as [|[[[]|[]|]|[[]|[]|]|]|]; try discriminate;
  repeat (match type of H with
         | context [read_varint ?a ?b ?c ?d ?e ?f] => destruct (read_varint a b c d e f) as [[? ?]| | |]
         | context [skip_varint ?a ?b ?c ?d] => destruct (skip_varint a b c d)
         | context [if ?b then _ else _] => destruct b eqn:?
         end; cbn [rbind] in H); try discriminate; injection H as <- <-; lia.
Qed.

Lemma skip_end_ok call r data i depth wire wt : 
  hexec call r skip_end (("wireType", HI HTint wt) :: ("wire", HI HTuint64 wire) :: skip_env data i depth)
  = let E := ("wireType", HI HTint wt) :: ("wire", HI HTuint64 wire) :: skip_env data i depth in
    if i <? 0 then HDone [RInt 0; RErr EInvalidLength] E
    else if depth =? 0 then HDone [RInt i; RNil] E else HNext E.
Proof.
  unfold skip_end, skip_env. go. destruct (i <? 0); [reflexivity|]. go. destruct (depth =? 0); reflexivity.
Qed.

Definition skip_returns (r : res unit Z) : list hret :=
  match r with
  | Ok n => [RInt n; RNil]
  | Err e _ => [RInt 0; RErr e]
  | _ => []
  end.

Lemma skip_loop_ok call r data : bytes_ok data = true -> small data -> (11 <= r)%nat ->
  forall fuel k i depth, (fuel <= k)%nat -> 0 <= i -> 0 <= depth <= i -> (Z.to_nat (zlen data - i) < fuel)%nat ->
  skip_result (match hloop k (hcond call skip_cond) (hexec call r skip_body) HNext (skip_env data i depth) with
               | HNext E1 => hexec call r eof E1
               | x => x
               end)
  = Ok (skip_returns (skip_loop fuel data i depth)).
Proof.
  intros B Sm R. pose proof Sm as Sm'. unfold small in Sm'. pose proof (zlen_nonneg data).
  induction fuel as [|fuel IH]; intros k i depth K I D F; [lia|].
  destruct k as [|k]; [lia|]. cbn [hloop skip_loop].
  assert (hcond call skip_cond (skip_env data i depth) = Some (i <? zlen data)) as -> by reflexivity.
  rewrite Z.leb_antisym.
  destruct (i <? zlen data) eqn:L; cbn [negb]; [|reflexivity].
  unfold skip_body. cbn [hexec].
  pose proof (wire_ends call r data i depth B Sm R I) as W.
  destruct (read_varint 11 u64 data i 0 0) as [[wire j]|e []| |] eqn:RV; cbn [ends] in W; try contradiction.
  2: destruct W as [E ->]; reflexivity.
  rewrite W. cbn [fst snd rbind].
  assert (0 <= wire < 18446744073709551616 /\ 0 < j <= zlen data /\ i < j) as (_ & J & J2).
  { apply (GenUnmarshalFacts.varint_uint data i wire j). exact RV. }
  set (wt := Z.land wire 7).
  assert (0 <= wt < 8) as Wt.
  { unfold wt. rewrite land7. apply Z.mod_pos_bound. lia. }
  assert (heval call (HConv HTint (HBin HAnd (HVar "wire") (HLit "0x7"))) (("wire", HI HTuint64 wire) :: skip_env data j depth)
          = Some (HI HTint wt)) as ->.
  { unfold skip_env. go. cbn [wrap]. fold wt. rewrite u64_id, s64_id by lia. reflexivity. }
  cbn [hdefault].
  pose proof (switch_ends call r data j depth wire wt B Sm R ltac:(lia) Wt ltac:(lia)) as Sw.
  destruct (skip_value_total data wt j depth B Sm ltac:(lia)) as [(i2 & d2 & E & Hi2)|(e & E)]; rewrite E in Sw |- *; cbn [ends] in Sw.
  2: destruct Sw as [E' Sw]; rewrite Sw; reflexivity.
  rewrite Sw. cbn [fst snd rbind]. rewrite skip_end_ok. cbv zeta.
  pose proof (skip_depth _ _ _ _ _ _ E ltac:(lia)) as D2.
  destruct (i2 <? 0) eqn:N; [reflexivity|]. destruct (d2 =? 0) eqn:N2; [reflexivity|].
  change (hleave (skip_env data i depth) (("wireType", HI HTint wt) :: ("wire", HI HTuint64 wire) :: skip_env data i2 d2))
    with (skip_env data i2 d2).
  apply IH; lia.
Qed.

Lemma run_Skip_ok rounds data : bytes_ok data = true -> small data -> (12 + List.length data <= rounds)%nat ->
  run_Skip rounds data = Ok (skip_returns (Skip data)).
Proof.
  intros B Sm R. unfold run_Skip, Skip_go. cbn [h_body hexec heval hlookup String.eqb Ascii.eqb Bool.eqb hdefault option_map].
  change (option_map HC (literal "0")) with (Some (HC 0)). cbn [hdefault].
  unfold Skip. apply skip_loop_ok; try assumption; try lia. unfold zlen. lia.
Qed.

(** ** KeySize *)
Definition key_env (x size num wt : Z) : henv :=
  [("size", HI HTint size); ("x", HI HTuint32 x); ("fieldNumber", HI HTint32 num); ("wireType", HI HTint8 wt)].

Lemma key_loop call r num wt : forall fuel k x size, (fuel < k)%nat -> 0 <= x < 128 ^ Z.of_nat fuel * 128 -> x < 4294967296 ->
  0 <= size <= 100 - Z.of_nat fuel ->
  exists x', hloop k (hcond call key_cond) (hexec call r key_body) (hupdate "size" HAdd (Some (HC 1))) (key_env x size num wt)
    = HNext (key_env x' (key_size_loop fuel x size) num wt).
Proof.
  induction fuel as [|fuel IH]; intros k x size K X X2 S; (destruct k as [|k]; [lia|]); cbn [hloop key_size_loop].
  - assert (hcond call key_cond (key_env x size num wt) = Some (127 <? x)) as -> by reflexivity.
    cbn in X. replace (127 <? x) with false by lia. eauto.
  - assert (hcond call key_cond (key_env x size num wt) = Some (127 <? x)) as -> by reflexivity.
    destruct (127 <? x) eqn:L; [|eauto].
    rewrite Z.shiftr_div_pow2 by lia. change (2 ^ 7) with 128.
    pose proof (Z.div_pos x 128). pose proof (Z.div_le_upper_bound x 128 x).
    assert (hexec call r key_body (key_env x size num wt) = HNext (key_env (x / 128) size num wt)) as ->.
    { unfold key_body, key_env. go. cbn [wrap]. rewrite Z.shiftr_div_pow2 by lia. change (2 ^ 7) with 128. rewrite u32_id by lia. reflexivity. }
    change (hleave (key_env x size num wt) (key_env (x / 128) size num wt)) with (key_env (x / 128) size num wt).
    assert (hupdate "size" HAdd (Some (HC 1)) (key_env (x / 128) size num wt) = HNext (key_env (x / 128) (size + 1) num wt)) as ->.
    { unfold key_env. go. cbn [wrap]. rewrite s64_id by lia. reflexivity. }
    apply IH; try lia.
    rewrite Nat2Z.inj_succ, Z.pow_succ_r in X by lia.
    assert (x / 128 < 128 ^ Z.of_nat fuel * 128) by (apply Z.div_lt_upper_bound; lia). lia.
Qed.

Lemma run_KeySize_ok rounds num wt : (6 <= rounds)%nat -> run_KeySize rounds num wt = Some (KeySize num wt).
Proof.
  intros R. unfold run_KeySize, KeySize_go.
  cbn [h_body hblock hexec].
  assert (heval no_call (HBin HOr (HBin HShl (HConv HTuint32 (HVar "fieldNumber")) (HLit "3")) (HConv HTuint32 (HVar "wireType")))
            [("fieldNumber", HI HTint32 num); ("wireType", HI HTint8 wt)]
          = Some (HI HTuint32 (Z.lor (u32 (Z.shiftl (u32 num) 3)) (u32 wt)))) as ->.
  { go. cbn [wrap]. rewrite u32_lor. rewrite !(u32_id (u32 _)) by apply u32_range. reflexivity. }
  cbn [hdefault]. set (x := Z.lor _ _).
  change (heval no_call (HLit "0") (("x", HI HTuint32 x) :: [("fieldNumber", HI HTint32 num); ("wireType", HI HTint8 wt)])) with (Some (HC 0)).
  cbn [hdefault hlookup hobind String.eqb Ascii.eqb Bool.eqb].
  change (heval no_call (HLit "0") (("size", HI HTint 0) :: ("x", HI HTuint32 x) :: [("fieldNumber", HI HTint32 num); ("wireType", HI HTint8 wt)])) with (Some (HC 0)).
  cbn [hobind]. change (wrap HTint 0) with 0. cbn [hset hobind hassign String.eqb Ascii.eqb Bool.eqb].
  fold (key_env x 0 num wt).
  assert (0 <= x < 4294967296) as X.
  { unfold x. rewrite <- (u32_id (u32 _)) by apply u32_range. rewrite <- (u32_id (u32 wt)) by apply u32_range. rewrite <- u32_lor. apply u32_range. }
  destruct (key_loop no_call rounds num wt 5 rounds x 0) as [x' ->]; try lia.
  assert (0 <= key_size_loop 5 x 0 <= 5).
  { cbn [key_size_loop]. repeat match goal with |- context [if ?b then _ else _] => destruct b end; lia. }
  unfold KeySize. fold x. cbv zeta. set (n := key_size_loop 5 x 0) in *. unfold key_env.
  go. cbn [wrap]. rewrite s64_id by lia. reflexivity.
Qed.
