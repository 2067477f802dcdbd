(** The marshalers and SizeVT against the specification, at message level. *)
From Coq Require Import ZArith List Bool Lia Permutation.
From Verif Require Import Base BaseFacts Schema Value Helpers WireSpec Typing VarintFacts Size Marshal
  SimFacts OrderFacts.
Import ListNotations.
Open Scope Z_scope.

Lemma sim_eq op ok ok' bs bs' : sim op ok bs -> ok = ok' -> bs = bs' -> sim op ok' bs'.
Proof. congruence. Qed.

(** Depth of parts *)
Lemma depth_fold {A} (d : A -> nat) x l : In x l ->
  (d x <= fold_right (fun x n => Nat.max (d x) n) 0%nat l)%nat.
Proof.
  induction l as [|y l IH]; intros []; cbn; [subst; lia|]. specialize (IH H). lia.
Qed.
Lemma depth_list x l : In x l -> (vdepth x < vdepth (VList l))%nat.
Proof. intros H. cbn. pose proof (depth_fold vdepth x l H). lia. Qed.
Lemma depth_map e l : In e l -> (vdepth (snd e) < vdepth (VMap l))%nat.
Proof. intros H. cbn. pose proof (depth_fold (fun p => vdepth (snd p)) e l H). cbn in H0. lia. Qed.
Lemma depth_slot s i u h : (vdepth (slot s i) < vdepth (VMsg s u h))%nat.
Proof.
  unfold slot. cbn [vdepth]. destruct (nth_in_or_default i s VNil) as [H| ->]; [|cbn; lia].
  pose proof (depth_fold vdepth _ _ H). lia.
Qed.

Section Step.
Variable sc : schema.
Variable strict : bool.
Hypothesis Hwf : wf_schema sc = true.
Hypothesis Hup : up_enc_ok sc.
Variable n : nat.
Variable rm : nat -> val -> list Z -> res unit (list Z * Z).
Variable rs : nat -> val -> Z.
Variable re : nat -> val -> list Z.
Variable rr : nat -> val -> bool.
Hypothesis Hnil : forall m, re m VNil = [].
Hypothesis Hrec : forall m v, wt_ptrmsg sc m v -> (vdepth v < n)%nat ->
  nsim (rm m v) (rr m v) (re m v) /\ rs m v = zlen (re m v).

Lemma wt_elem_sub k m v : sub_of k = Some m -> wt_elem sc k v -> wt_ptrmsg sc m v.
Proof.
  intros Hk H. inversion H; subst; try discriminate; unfold wt_ptrmsg.
  - destruct k; discriminate.
  - now left.
  - right. congruence.
Qed.

Lemma enc_sub_nil m : enc_sub sc re m VNil = [].
Proof.
  unfold enc_sub. destruct (md_foreign (md_of sc m)) eqn:E; [|apply Hnil].
  now apply (up_nil_ok sc Hup).
Qed.

Lemma messageSize_len m v : wt_ptrmsg sc m v -> (vdepth v < n)%nat ->
  messageSize sc rs m v = zlen (enc_sub sc re m v).
Proof.
  intros H D. unfold messageSize, enc_sub. destruct (md_foreign (md_of sc m)) eqn:E.
  - now apply (up_size_ok sc Hup).
  - now apply Hrec.
Qed.

Definition req_sub (m : nat) (v : val) : bool :=
  if md_foreign (md_of sc m) then up_init (sc_up sc) m v else rr m v.

Lemma sim_backward varInt m v : wt_ptrmsg sc m v -> (vdepth v < n)%nat ->
  sim (marshalBackward sc rm varInt m v) (req_sub m v)
      (if varInt then ld (enc_sub sc re m v) else enc_sub sc re m v).
Proof.
  intros H D. unfold marshalBackward, req_sub, enc_sub.
  destruct (md_foreign (md_of sc m)) eqn:E.
  - set (b := up_enc (sc_up sc) m v). destruct (up_init (sc_up sc) m v).
    + destruct varInt.
      * apply (sim_eq _ (true && true) _ (varint (zlen b) ++ b)); [|reflexivity|reflexivity].
        apply (sim_seq (put_bytes b) (encodeVarint (zlen b))).
        -- apply sim_put_bytes.
        -- apply sim_encodeVarint, zlen_nonneg.
      * apply (sim_ext _ (put_bytes b)); [|apply sim_put_bytes].
        intros st. now destruct (put_bytes b st).
    + split; [intros; exists EUpstream; reflexivity|right; now exists EUpstream].
  - destruct (Hrec m v H D) as [S _]. destruct varInt.
    + now apply sim_sub_call_varint.
    + apply (sim_ext _ (fun st => do r <- sub_call (rm m v) st; Ok (fst r))).
      * intros st. destruct (sub_call (rm m v) st) as [[]| | |]; reflexivity.
      * now apply sim_sub_call.
Qed.

(** One value. *)
Lemma sim_value k v : wt_elem sc k v -> (vdepth v < n)%nat ->
  sim (encodeValue sc rm k v) (req_value sc rr k v) (enc_value sc re k v).
Proof.
  intros H D. unfold encodeValue.
  assert (forall z, 0 <= z mod 18446744073709551616) as M by (intros; apply Z.mod_pos_bound; lia).
  assert (forall b, sim (fun st => do st' <- put_bytes b st; encodeVarint (zlen b) st') true (ld b)) as LD.
  { intros b. unfold ld. apply (sim_eq _ (true && true) _ (varint (zlen b) ++ b)); auto.
    apply (sim_seq (put_bytes b) (encodeVarint (zlen b)));
      [apply sim_put_bytes|apply sim_encodeVarint, zlen_nonneg]. }
  destruct k; cbn [classify req_value enc_value zigzag].
  all: try apply sim_encodeFixed64.
  all: try apply sim_encodeFixed32.
  all: try (apply sim_encodeVarint; apply M).
  all: try apply sim_encodeBool.
  all: try apply LD.
  - apply (sim_backward false m v); [eapply wt_elem_sub; eauto; reflexivity|assumption].
  - apply (sim_backward true m v); [eapply wt_elem_sub; eauto; reflexivity|assumption].
  - inversion H as [k z R| | | |k m ? |k m ? ?]; subst; try discriminate. cbn in R. cbn [vint].
    rewrite zigzag32_spec by lia. apply sim_encodeVarint, zz_nonneg.
  - inversion H as [k z R| | | |k m ? |k m ? ?]; subst; try discriminate. cbn in R. cbn [vint].
    rewrite zigzag64_spec by lia. apply sim_encodeVarint, zz_nonneg.
Qed.

Lemma sim_tagged num k v : 1 <= num < 536870912 -> wt_elem sc k v -> (vdepth v < n)%nat ->
  sim (encodeTagged sc rm num k v) (req_value sc rr k v) (enc_tagged sc re num k v).
Proof.
  intros Hn H D.
  assert (sub_of k = None \/ (exists m, k = KMessage m) ->
    sim (fun st => do st <- encodeValue sc rm k v st; encodeKey num (ProtoWireType k) st)
        (req_value sc rr k v) (tag num (wire_of k) ++ enc_value sc re k v)) as G.
  { intros _. apply (sim_eq _ (req_value sc rr k v && true) _ (tag num (wire_of k) ++ enc_value sc re k v));
      [|apply andb_true_r|reflexivity].
    apply (sim_seq (encodeValue sc rm k v) (encodeKey num (ProtoWireType k))).
    - now apply sim_value.
    - rewrite wire_same. apply sim_encodeKey; [lia|apply wire_range]. }
  unfold encodeTagged, enc_tagged. destruct k; cbn [classify]; try (apply G; left; reflexivity).
  - (* group *)
    cbn [req_value].
    apply (sim_eq _ (true && (req_sub m v && true)) _ ((tag num 3 ++ enc_sub sc re m v) ++ tag num 4)).
    + apply (sim_seq (encodeKey num 4) (fun st => do st <- marshalBackward sc rm false m v st; encodeKey num 3 st)).
      * apply sim_encodeKey; lia.
      * apply (sim_seq (marshalBackward sc rm false m v) (encodeKey num 3)).
        -- apply (sim_backward false m v); [eapply wt_elem_sub; eauto; reflexivity|assumption].
        -- apply sim_encodeKey; lia.
    + rewrite andb_true_r. reflexivity.
    + now rewrite app_assoc.
  - apply G. right. eauto.
Qed.

Lemma sim_entry num kk vk e : 1 <= num < 536870912 -> wt_elem sc kk (fst e) -> wt_elem sc vk (snd e) ->
  sub_of kk = None -> (vdepth (snd e) < n)%nat -> (vdepth (fst e) < n)%nat ->
  sim (encodeEntry sc rm num kk vk e) (req_value sc rr vk (snd e)) (enc_entry sc re num kk vk e).
Proof.
  intros Hn Hk Hv Sk D D'. unfold encodeEntry, enc_entry.
  set (inner := fun st => do st <- encodeValue sc rm vk (snd e) st;
     do st <- encodeKey 2 (ProtoWireType vk) st;
     do st <- encodeValue sc rm kk (fst e) st; encodeKey 1 (ProtoWireType kk) st).
  set (body := tag 1 (wire_of kk) ++ enc_value sc re kk (fst e) ++
     tag 2 (wire_of vk) ++ enc_value sc re vk (snd e)).
  assert (sim inner (req_value sc rr vk (snd e)) body) as SI.
  { unfold inner, body. rewrite !wire_same.
    eapply sim_eq.
    - apply (sim_seq (encodeValue sc rm vk (snd e)) (fun st => do st <- encodeKey 2 (wire_of vk) st;
        do st <- encodeValue sc rm kk (fst e) st; encodeKey 1 (wire_of kk) st)).
      + apply sim_value; eassumption.
      + apply (sim_seq (encodeKey 2 (wire_of vk)) (fun st =>
          do st <- encodeValue sc rm kk (fst e) st; encodeKey 1 (wire_of kk) st)).
        * apply sim_encodeKey; [lia|apply wire_range].
        * apply (sim_seq (encodeValue sc rm kk (fst e)) (encodeKey 1 (wire_of kk))).
          -- apply sim_value; eassumption.
          -- apply sim_encodeKey; [lia|apply wire_range].
    - destruct kk; try discriminate Sk; cbn [req_value]; cbn [andb]; apply andb_true_r.
    - now rewrite <- !app_assoc. }
  apply (sim_eq _ (req_value sc rr vk (snd e) && true) _ (tag num 2 ++ ld body));
    [|apply andb_true_r|reflexivity].
  apply (sim_ext _ (fun st => do st' <- (do st' <- inner st; encodeVarint (snd st - snd st') st');
                              encodeKey num 2 st')).
  - intros st. unfold inner, rbind.
    repeat (match goal with |- context [match ?x with _ => _ end] =>
      lazymatch x with context [match _ with _ => _ end] => fail | _ => destruct x end end; try reflexivity).
  - apply (sim_seq (fun st => do st' <- inner st; encodeVarint (snd st - snd st') st') (encodeKey num 2)).
    + now apply sim_measured.
    + apply sim_encodeKey; lia.
Qed.

Lemma packed_arg k x : is_num k = true -> wt_elem sc k x ->
  classify k = CVar \/ classify k = CZig ->
  0 <= varint_arg k (vint x) /\ varint (varint_arg k (vint x)) = enc_value sc re k x /\
  match classify k with CZig => SizeOfZigzag (u64 (vint x)) | _ => SizeOfVarint (u64 (vint x)) end
  = zlen (enc_value sc re k x).
Proof.
  intros Nk H C. inversion H as [k' z R| | | |k' m ? |k' m ? ?]; subst; try discriminate;
    try (destruct k; discriminate).
  cbn [vint].
  destruct k; cbn in C; destruct C; try discriminate; cbn in R;
    cbn [classify varint_arg enc_value zigzag vint];
    try (change (z mod 18446744073709551616) with (u64 z); pose proof (u64_range z);
         split; [lia|]; split; [reflexivity|]; apply SizeOfVarint_len; lia).
  - rewrite zigzag32_spec by lia. split; [apply zz_nonneg|]. split; [reflexivity|].
    apply SizeOfZigzag_len. lia.
  - rewrite zigzag64_spec by lia. split; [apply zz_nonneg|]. split; [reflexivity|].
    apply SizeOfZigzag_len. lia.
Qed.

Lemma packed_total_len k l : is_num k = true -> (forall x, In x l -> wt_elem sc k x) ->
  classify k = CVar \/ classify k = CZig ->
  packed_total k l = zlen (concat (map (enc_value sc re k) l)).
Proof.
  intros Nk Hl C. unfold packed_total. apply sum_over_len. intros x Hx.
  destruct (packed_arg k x Nk (Hl x Hx) C) as (_ & _ & E). destruct C as [C|C]; rewrite C in *; exact E.
Qed.

Lemma fixed_len64 x : zlen (le_bytes 8 x) = 8.
Proof. unfold zlen. now rewrite le_bytes_len. Qed.
Lemma fixed_len32 x : zlen (le_bytes 4 x) = 4.
Proof. unfold zlen. now rewrite le_bytes_len. Qed.

Lemma sim_packed num k l : 1 <= num < 536870912 -> is_num k = true ->
  (forall x, In x l -> wt_elem sc k x) -> l <> [] ->
  sim (encodePacked num k l) true (tag num 2 ++ ld (concat (map (enc_value sc re k) l))).
Proof.
  intros Hn Nk Hl Hne. pose proof (zlen_nonneg l) as Ll.
  assert (forall op total bs, sim op true bs -> total = zlen bs ->
    sim (fun st => do st <- op st; do st <- encodeVarint total st; encodeKey num 2 st) true
        (tag num 2 ++ ld bs)) as G.
  { intros op total bs S ->. unfold ld. rewrite app_assoc.
    apply (sim_eq _ (true && (true && true)) _ ((tag num 2 ++ varint (zlen bs)) ++ bs)); auto.
    apply (sim_seq op (fun st => do st <- encodeVarint (zlen bs) st; encodeKey num 2 st)); [assumption|].
    apply (sim_seq (encodeVarint (zlen bs)) (encodeKey num 2)).
    - apply sim_encodeVarint, zlen_nonneg.
    - apply sim_encodeKey; lia. }
  assert (forall (g : val -> mst -> mres) e, (forall x, sim (g x) true (e x)) ->
    sim (run_all (map g (rev l))) true (concat (map e l))) as R.
  { intros g e S.
    pose proof (sim_run_all g (fun _ => true) e (rev l) (fun x _ => S x)) as X.
    rewrite rev_involutive in X. eapply sim_eq; [exact X| |reflexivity].
    apply forallb_forall. reflexivity. }
  unfold encodePacked.
  destruct k eqn:Ek; try discriminate Nk; cbn [classify].
  (* varints *)
  Ltac packed_var k Hl Hne Nk G :=
    match goal with |- sim (fun st : mst => let (buf, i) := st in _) true (tag ?num 2 ++ ld (concat (map (enc_value ?sc ?re _) ?l))) =>
      let C := fresh "C" in
      assert (classify k = CVar \/ classify k = CZig) as C by (cbn; tauto);
      pose proof (packed_total_len k l Nk Hl C) as T;
      set (e := concat (map (enc_value sc re k) l)) in *;
      set (fwd := fun st : mst => do r <- packed_fwd k l (fst st) (snd st - packed_total k l);
                                  Ok (fst r, snd st - packed_total k l));
      apply (sim_ext _ (fun st => do st <- fwd st; do st <- encodeVarint (packed_total k l) st; encodeKey num 2 st));
      [intros [buf i]; unfold fwd; cbn [fst snd]; destruct (packed_fwd k l buf (i - packed_total k l)); reflexivity|];
      apply G; [|exact T];
      assert (e = concat (map (fun x => varint (varint_arg k (vint x))) l)) as Ee
        by (unfold e; f_equal; apply map_ext_in; intros x Hx; symmetry; apply (packed_arg k x Nk (Hl x Hx) C));
      split;
      [ intros p q s Hq; unfold fwd; cbn [fst snd outcome];
        replace (zlen p + zlen q - packed_total k l) with (zlen p) by lia;
        rewrite packed_fwd_ok;
        [ now rewrite <- Ee
        | intros x Hx; apply (packed_arg k x Nk (Hl x Hx) C)
        | now rewrite <- Ee ]
      | intros q s Hq; unfold fwd; cbn [fst snd];
        destruct l as [|x l0]; [contradiction|]; cbn [packed_fwd]; unfold varint_fuel;
        rewrite varint_loop_neg by lia; now left ]
    end.
  - (* double *)
    apply G.
    + apply (R (fun e => encodeFixed64 (vint e))). intros. apply sim_encodeFixed64.
    + rewrite (sum_over_const 8) by (intros; apply fixed_len64). lia.
  - apply G.
    + apply (R (fun e => encodeFixed32 (vint e))). intros. apply sim_encodeFixed32.
    + rewrite (sum_over_const 4) by (intros; apply fixed_len32). lia.
  - packed_var KInt64 Hl Hne Nk G.
  - packed_var KUint64 Hl Hne Nk G.
  - packed_var KInt32 Hl Hne Nk G.
  - apply G.
    + apply (R (fun e => encodeFixed64 (vint e))). intros. apply sim_encodeFixed64.
    + rewrite (sum_over_const 8) by (intros; apply fixed_len64). lia.
  - apply G.
    + apply (R (fun e => encodeFixed32 (vint e))). intros. apply sim_encodeFixed32.
    + rewrite (sum_over_const 4) by (intros; apply fixed_len32). lia.
  - apply G.
    + apply (R (fun e => encodeBool (vint e))). intros. apply sim_encodeBool.
    + rewrite (sum_over_const 1) by (intros; reflexivity). lia.
  - packed_var KUint32 Hl Hne Nk G.
  - packed_var KEnum Hl Hne Nk G.
  - apply G.
    + apply (R (fun e => encodeFixed32 (vint e))). intros. apply sim_encodeFixed32.
    + rewrite (sum_over_const 4) by (intros; apply fixed_len32). lia.
  - apply G.
    + apply (R (fun e => encodeFixed64 (vint e))). intros. apply sim_encodeFixed64.
    + rewrite (sum_over_const 8) by (intros; apply fixed_len64). lia.
  - packed_var KSint32 Hl Hne Nk G.
  - packed_var KSint64 Hl Hne Nk G.
Qed.

(** Implicit presence: the generated test is the specification's. *)
Lemma zero_num_spec k z : in_range k z = true -> is_zero k z = zero_num k z.
Proof.
  intros R. destruct k; try reflexivity; cbn in *.
  - apply andb_true_iff in R as [R1 R2].
    destruct (Z.eq_dec z 0) as [->|]; [reflexivity|].
    destruct (Z.eq_dec z 9223372036854775808) as [->|]; [reflexivity|].
    assert (z mod 9223372036854775808 <> 0).
    { intros E. destruct (Z_lt_dec z 9223372036854775808).
      - rewrite Z.mod_small in E; lia.
      - replace (z mod 9223372036854775808) with (z - 9223372036854775808) in E; [lia|].
        apply Z.mod_unique with 1; lia. }
    lia.
  - apply andb_true_iff in R as [R1 R2].
    destruct (Z.eq_dec z 0) as [->|]; [reflexivity|].
    destruct (Z.eq_dec z 2147483648) as [->|]; [reflexivity|].
    assert (z mod 2147483648 <> 0).
    { intros E. destruct (Z_lt_dec z 2147483648).
      - rewrite Z.mod_small in E; lia.
      - replace (z mod 2147483648) with (z - 2147483648) in E; [lia|].
        apply Z.mod_unique with 1; lia. }
    lia.
Qed.

Lemma implicit_spec k v : wt_elem sc k v -> sub_of k = None ->
  implicit_set k v = negb (default_value k v).
Proof.
  intros H S. inversion H as [k' z R| | | |k' m E|k' m v' E E']; subst; try congruence.
  - unfold implicit_set, default_value.
    destruct k; try discriminate R; cbn [classify vint]; now rewrite (zero_num_spec _ z R).
  - unfold implicit_set, default_value. cbn [classify vbytes]. destruct s; [reflexivity|].
    rewrite zlen_cons. pose proof (zlen_nonneg s). now replace (0 <? 1 + zlen s) with true by lia.
  - unfold implicit_set, default_value. cbn [classify vbytes]. destruct s; [reflexivity|].
    rewrite zlen_cons. pose proof (zlen_nonneg s). now replace (0 <? 1 + zlen s) with true by lia.
  - reflexivity.
Qed.

(** Sizes of values. *)
Lemma tag_len num a b : 1 <= num -> 0 <= a < 8 -> 0 <= b < 8 -> zlen (tag num a) = zlen (tag num b).
Proof.
  intros Hn Ha Hb. unfold tag. rewrite !varint_len by lia.
  assert (forall c, 0 <= c < 8 -> Z.log2 (num * 8 + c) = Z.log2 num + 3) as L.
  { intros c Hc. pose proof (Z.log2_shiftr (num * 8 + c) 3 ltac:(lia)) as L1.
    rewrite Z.shiftr_div_pow2 in L1 by lia. change (2^3) with 8 in *.
    replace ((num * 8 + c) / 8) with num in L1 by (apply Z.div_unique with c; lia).
    assert (3 <= Z.log2 (num * 8 + c)) by (change 3 with (Z.log2 8); apply Z.log2_le_mono; lia).
    lia. }
  now rewrite !L.
Qed.

Lemma value_size_len num k v : 1 <= num < 536870912 -> wt_elem sc k v -> (vdepth v < n)%nat ->
  value_size sc rs (KeySize num (ProtoWireType k)) k v = zlen (enc_tagged sc re num k v).
Proof.
  intros Hn H D. rewrite wire_same. rewrite KeySize_len by (auto using wire_range; lia).
  assert (forall z, SizeOfVarint (u64 z) = zlen (varint (z mod 18446744073709551616))) as SV.
  { intros. apply SizeOfVarint_len. pose proof (u64_range z). unfold u64 in *. lia. }
  assert (forall b, zlen (ld b) = SizeOfVarint (zlen b) + zlen b) as SL.
  { intros. unfold ld. rewrite zlen_app, SizeOfVarint_len by apply zlen_nonneg. reflexivity. }
  unfold value_size, enc_tagged. destruct k; cbn [classify enc_value]; cbv zeta; rewrite ?zlen_app, ?fixed_len64, ?fixed_len32, ?SV, ?SL; try reflexivity; try lia.
  - rewrite messageSize_len by (auto; eapply wt_elem_sub; eauto; reflexivity).
    cbn [wire_of]. assert (zlen (tag num 4) = zlen (tag num 3)) as T by (apply tag_len; lia).
    lia.
  - rewrite messageSize_len by (auto; eapply wt_elem_sub; eauto; reflexivity). lia.
  - inversion H as [k z R| | | |k m ? |k m ? ?]; subst; try discriminate. cbn in R. cbn [vint].
    rewrite SizeOfZigzag_len by lia. reflexivity.
  - inversion H as [k z R| | | |k m ? |k m ? ?]; subst; try discriminate. cbn in R. cbn [vint].
    rewrite SizeOfZigzag_len by lia. reflexivity.
Qed.

(** The size expressions of map keys and values are those of tagged values. *)
Lemma map_val_size_len vk v : wt_elem sc vk v -> (vdepth v < n)%nat -> is_group vk = false ->
  map_val_size sc rs vk v = zlen (tag 2 (wire_of vk) ++ enc_value sc re vk v).
Proof.
  intros H D G. pose proof (value_size_len 2 vk v ltac:(lia) H D) as E.
  unfold value_size, enc_tagged, map_val_size in *. rewrite wire_same in *.
  destruct vk; try discriminate G; cbn [classify] in *; cbv zeta in *; rewrite <- E; try lia.
  destruct (is_nil v) eqn:N; [|lia].
  destruct v; try discriminate N. rewrite messageSize_len by (auto; now left).
  rewrite enc_sub_nil. cbn. lia.
Qed.

Lemma map_key_size_len kk v : wt_elem sc kk v -> (vdepth v < n)%nat -> key_kind kk = true ->
  KeySize 1 (ProtoWireType kk) + map_key_size kk v
  = zlen (tag 1 (wire_of kk) ++ enc_value sc re kk v).
Proof.
  intros H D K. pose proof (value_size_len 1 kk v ltac:(lia) H D) as E.
  unfold value_size, enc_tagged, map_key_size in *.
  destruct kk; try discriminate K; cbn [classify] in *; cbv zeta in *; rewrite <- E; lia.
Qed.

Lemma map_entry_size_len num kk vk e : 1 <= num < 536870912 ->
  wt_elem sc kk (fst e) -> wt_elem sc vk (snd e) ->
  key_kind kk = true -> is_group vk = false -> (vdepth (snd e) < n)%nat -> (vdepth (fst e) < n)%nat ->
  map_entry_size sc rs num kk vk e = zlen (enc_entry sc re num kk vk e).
Proof.
  intros Hn Hk Hv K G D D'. unfold map_entry_size, enc_entry. cbv zeta.
  rewrite map_key_size_len, map_val_size_len by assumption.
  rewrite KeySize_len by lia.
  rewrite <- zlen_app, <- app_assoc. unfold ld.
  rewrite SizeOfVarint_len by apply zlen_nonneg. rewrite !zlen_app. lia.
Qed.

Lemma size_packed_len num k l : 1 <= num < 536870912 -> is_num k = true ->
  (forall x, In x l -> wt_elem sc k x) ->
  size_packed (KeySize num 2) k l = zlen (tag num 2 ++ ld (concat (map (enc_value sc re k) l))).
Proof.
  intros Hn Nk Hl. rewrite KeySize_len by lia. unfold ld. rewrite !zlen_app.
  set (e := concat (map (enc_value sc re k) l)).
  assert (forall t, t = zlen e -> zlen (tag num 2) + SizeOfVarint t + t
                    = zlen (tag num 2) + (zlen (varint (zlen e)) + zlen e)) as G.
  { intros t ->. rewrite SizeOfVarint_len by apply zlen_nonneg. lia. }
  unfold size_packed. pose proof (packed_total_len k l Nk Hl) as T. unfold packed_total in T.
  destruct k; try discriminate Nk; cbn [classify] in *; cbv zeta.
  all: try (apply G; apply T; tauto).
  all: try (apply G; unfold e; rewrite (sum_over_const 8) by (intros; apply fixed_len64); lia).
  all: try (apply G; unfold e; rewrite (sum_over_const 4) by (intros; apply fixed_len32); lia).
  replace (zlen l * 1) with (zlen l) by lia.
  apply G. unfold e. rewrite (sum_over_const 1) by reflexivity. lia.
Qed.

Lemma size_list_len num k l : 1 <= num < 536870912 ->
  (forall x, In x l -> wt_elem sc k x) -> (forall x, In x l -> (vdepth x < n)%nat) ->
  size_list sc rs (KeySize num (ProtoWireType k)) k l = zlen (concat (map (enc_tagged sc re num k) l)).
Proof.
  intros Hn Hl D.
  assert (sum_over (value_size sc rs (KeySize num (ProtoWireType k)) k) l
          = zlen (concat (map (enc_tagged sc re num k) l))) as E.
  { apply sum_over_len. intros. apply value_size_len; auto. }
  assert (forall c, (forall x, In x l -> value_size sc rs (KeySize num (ProtoWireType k)) k x = c) ->
          c * zlen l = zlen (concat (map (enc_tagged sc re num k) l))) as C.
  { intros c Hc. symmetry. apply sum_over_const. intros x Hx. rewrite <- value_size_len by auto. auto. }
  unfold size_list. destruct k; cbn [classify] in *; try exact E; apply C; reflexivity.
Qed.

(** * One field *)
Lemma field_spec md f v : 1 <= f_num f < 536870912 -> wf_type (length (sc_msgs sc)) (f_ty f) = true ->
  is_oneof f = false -> wt_field sc md f v -> (vdepth v < n)%nat ->
  sim (marshal_field sc rm f v) (req_field sc rr f v) (enc_field sc re f v)
  /\ size_field sc rs f v = zlen (enc_field sc re f v).
Proof.
  intros Hn W O H D. unfold marshal_field, req_field, enc_field, size_field, is_oneof in *.
  destruct (f_ty f) as [lbl k|kk vk] eqn:T.
  - cbn in W. apply andb_true_iff in W as [Wk W]. destruct lbl as [| | |p|]; [| | | |discriminate O].
    + (* implicit *)
      assert (sub_of k = None) as S by (destruct (sub_of k); [discriminate|reflexivity]).
      assert (req_value sc rr k v = true) as R by (destruct k; try discriminate S; reflexivity).
      assert (wt_elem sc k v) as Hv by (apply wt_field_inv in H; now rewrite T in H).
      rewrite (implicit_spec k v Hv S), R, orb_true_r.
      destruct (default_value k v); cbn [negb].
      * split; [apply sim_id|reflexivity].
      * split; [|now apply value_size_len]. rewrite <- R. now apply sim_tagged.
    + (* optional *)
      apply wt_field_inv in H. rewrite T in H. destruct H as [->|[(x & -> & K & He)|(K1 & K2 & He)]].
      * split; [apply sim_id|reflexivity].
      * cbn in D. cbn [is_nil deref]. split; [apply sim_tagged|apply value_size_len]; auto; lia.
      * destruct v; cbn [is_nil deref]; try (split; [now apply sim_tagged|now apply value_size_len]).
        -- split; [apply sim_id|reflexivity].
        -- now apply wt_elem_notptr in He.
    + (* required *)
      apply wt_field_inv in H. rewrite T in H. destruct H as [->|[(x & -> & K & He)|(K1 & K2 & He)]].
      * split; [|reflexivity]. split; [intros; exists ERequired; reflexivity|right; now exists ERequired].
      * cbn in D. cbn [is_nil deref]. split; [apply sim_tagged|apply value_size_len]; auto; lia.
      * destruct v; cbn [is_nil deref]; try (split; [now apply sim_tagged|now apply value_size_len]).
        -- split; [|reflexivity]. split; [intros; exists ERequired; reflexivity|right; now exists ERequired].
        -- now apply wt_elem_notptr in He.
    + (* repeated *)
      assert ((forall x, In x (vlist v) -> wt_elem sc k x) /\ (forall x, In x (vlist v) -> (vdepth x < n)%nat)) as [Hl Dl].
      { apply wt_field_inv in H. rewrite T in H. destruct H as [->|(l & -> & Hl)].
        - split; intros x [].
        - split; [exact Hl|]. cbn [vlist]. intros x Hx. pose proof (depth_list x l Hx). lia. }
      destruct p.
      * cbn in W. apply andb_true_iff in W as [W _].
        replace (forallb (req_value sc rr k) (vlist v)) with true
          by (symmetry; apply forallb_forall; intros; destruct k; try discriminate W; reflexivity).
        destruct (vlist v) as [|x l] eqn:V.
        -- split; [apply sim_id|reflexivity].
        -- rewrite zlen_cons. pose proof (zlen_nonneg l). replace (0 <? 1 + zlen l) with true by lia.
           split; [apply sim_packed; auto; discriminate|apply size_packed_len; auto].
      * assert (sim (run_all (map (encodeTagged sc rm (f_num f) k) (rev (vlist v))))
                  (forallb (req_value sc rr k) (vlist v))
                  (concat (map (enc_tagged sc re (f_num f) k) (vlist v)))) as S.
        { pose proof (sim_run_all (encodeTagged sc rm (f_num f) k) (req_value sc rr k)
            (enc_tagged sc re (f_num f) k) (rev (vlist v))) as X.
          rewrite rev_involutive, forallb_rev in X. apply X. intros x Hx.
          rewrite <- in_rev in Hx. apply sim_tagged; auto. }
        destruct (vlist v) as [|x l] eqn:V.
        -- split; [exact S|reflexivity].
        -- rewrite zlen_cons. pose proof (zlen_nonneg l). replace (0 <? 1 + zlen l) with true by lia.
           split; [exact S|apply size_list_len; auto].
  - (* map *)
    cbn in W. rewrite !andb_true_iff in W. destruct W as [[K Wv] G].
    assert (is_group vk = false) as Gv by (now destruct (is_group vk)).
    assert (sub_of kk = None) as Sk by (destruct kk; try discriminate K; reflexivity).
    assert ((forall e, In e (vmap v) -> wt_elem sc kk (fst e) /\ wt_elem sc vk (snd e)
              /\ (vdepth (snd e) < n)%nat /\ (vdepth (fst e) < n)%nat)) as Hl.
    { apply wt_field_inv in H. rewrite T in H. destruct H as [->|(l & -> & Hkk & Hvk & _)].
      - intros e [].
      - intros e He. cbn in He. pose proof (depth_map e l He).
        split; [auto|]. split; [auto|]. split; [lia|].
        specialize (Hkk e He). inversion Hkk; subst; try congruence; cbn; lia. }
    assert (sim (run_all (map (encodeEntry sc rm (f_num f) kk vk) (vmap v)))
              (forallb (fun e => req_value sc rr vk (snd e)) (vmap v))
              (concat (map (enc_entry sc re (f_num f) kk vk) (rev (vmap v))))) as S.
    { apply sim_run_all. intros e He. destruct (Hl e He) as (H1 & H2 & H3 & H4).
      apply sim_entry; auto. }
    destruct (vmap v) as [|x l] eqn:V.
    + split; [exact S|reflexivity].
    + rewrite zlen_cons. pose proof (zlen_nonneg l). replace (0 <? 1 + zlen l) with true by lia.
      split; [exact S|]. rewrite zlen_concat_rev. apply sum_over_len. intros e He.
      destruct (Hl e He) as (H1 & H2 & H3 & H4). apply map_entry_size_len; auto.
Qed.

(** A oneof member. *)
Lemma member_spec g k x : 1 <= f_num g < 536870912 -> f_ty g = TField LOneof k ->
  is_group k = false -> wt_elem sc k x -> (vdepth x < n)%nat ->
  sim (marshal_field sc rm g x) (is_nil x || req_value sc rr k x) (enc_tagged sc re (f_num g) k x)
  /\ size_field sc rs g x = zlen (enc_tagged sc re (f_num g) k x).
Proof.
  intros Hn T G H D. unfold marshal_field, size_field. rewrite T.
  assert (sub_of k = None ->
    sim (encodeTagged sc rm (f_num g) k x) (is_nil x || req_value sc rr k x) (enc_tagged sc re (f_num g) k x)) as A.
  { intros S. replace (is_nil x || req_value sc rr k x) with (req_value sc rr k x).
    - now apply sim_tagged.
    - destruct k; try discriminate S; cbn; now rewrite orb_true_r. }
  destruct k; try discriminate G; cbn [classify];
    try (split; [now apply A|now apply value_size_len]).
  destruct (is_nil x) eqn:N.
  - destruct x; try discriminate N. cbn [orb]. unfold enc_tagged. cbn [enc_value].
    rewrite enc_sub_nil. split.
    + apply (sim_eq _ (true && true) _ (tag (f_num g) 2 ++ varint 0)); auto.
      apply (sim_seq (encodeVarint 0) (encodeKey (f_num g) 2)).
      * apply sim_encodeVarint. lia.
      * apply sim_encodeKey; lia.
    + rewrite KeySize_len, zlen_app by (cbn; lia). reflexivity.
  - cbn [orb]. split; [now apply sim_tagged|now apply value_size_len].
Qed.

Lemma wrapper_spec g k x : 1 <= f_num g < 536870912 -> f_ty g = TField LOneof k ->
  is_group k = false -> wt_elem sc k x -> (vdepth x < n)%nat ->
  sim (fun st => do r <- sub_call (marshal_wrapper sc rm g x) st; Ok (fst r))
      (is_nil x || req_value sc rr k x) (enc_tagged sc re (f_num g) k x).
Proof.
  intros. apply sim_sub_call. apply (nsim_of_sim (marshal_field sc rm g x)).
  now apply member_spec.
Qed.

(** What a oneof struct member can hold. *)
Lemma oneof_value m f v : In f (md_fields (md_of sc m)) -> is_oneof f = true ->
  wt_field sc (md_of sc m) f v ->
  v = VNil \/ exists g k x, v = VOneof (f_num g) x /\ In g (md_fields (md_of sc m)) /\
    f_slot g = f_slot f /\ f_ty g = TField LOneof k /\ wt_elem sc k x /\ is_group k = false
    /\ 1 <= f_num g < 536870912.
Proof.
  intros Hf O H. unfold is_oneof in O. destruct (f_ty f) as [[]|] eqn:T; try discriminate O.
  apply wt_field_inv in H. rewrite T in H. destruct H as [->|(g & k' & x & -> & Hg & Hs & Ht & He)].
  - now left.
  - right. exists g, k', x. split; [reflexivity|]. do 4 (split; [assumption|]). split.
    + pose proof (wf_ty sc m g Hwf Hg) as W. rewrite Ht in W. cbn in W.
      apply andb_true_iff in W as [_ W]. now destruct (is_group k').
    + now apply (wf_num sc m).
Qed.

Lemma member_in_order m f v : In f (md_fields (md_of sc m)) -> is_oneof f = true ->
  wt_field sc (md_of sc m) f v -> (vdepth v < n)%nat ->
  sim (marshal_member sc rm f v) (req_field sc rr f v) (enc_field sc re f v).
Proof.
  intros Hf O H D. destruct (oneof_value m f v Hf O H) as [->|(g & k & x & -> & Hg & Hs & T & He & G & Hn)].
  - unfold req_field, enc_field. unfold is_oneof in O.
    destruct (f_ty f) as [[]|] eqn:T; try discriminate O. apply sim_id.
  - unfold marshal_member, req_field, enc_field. pose proof O as O'. unfold is_oneof in O'.
    destruct (f_ty f) as [[]|] eqn:Tf; try discriminate O'.
    destruct (f_num g =? f_num f) eqn:E; [|apply sim_id].
    assert (g = f) as -> by (apply (wf_num_inj sc m); auto; lia).
    rewrite Tf in T. injection T as ->. cbn in D. apply wrapper_spec; auto. lia.
Qed.

(** A whole oneof. *)
Lemma oneof_spec m fs f v : Permutation fs (md_fields (md_of sc m)) ->
  In f (md_fields (md_of sc m)) -> is_oneof f = true ->
  wt_field sc (md_of sc m) f v -> (vdepth v < n)%nat ->
  sim (marshal_oneof sc rm (md_of sc m) v)
      (forallb (fun g => req_field sc rr g v) (members (f_slot f) fs))
      (concat (map (fun g => enc_field sc re g v) (members (f_slot f) fs)))
  /\ size_oneof sc rs (md_of sc m) v
     = zlen (concat (map (fun g => enc_field sc re g v) (members (f_slot f) fs))).
Proof.
  intros P Hf O H D.
  assert (forall h, In h (members (f_slot f) fs) -> exists k, f_ty h = TField LOneof k) as M.
  { intros h Hh. apply filter_In in Hh as [_ Hh]. apply andb_true_iff in Hh as [Hh _].
    unfold is_oneof in Hh. destruct (f_ty h) as [[]|]; try discriminate. eauto. }
  destruct (oneof_value m f v Hf O H) as [->|(g & k & x & -> & Hg & Hs & T & He & G & Hn)].
  - replace (concat (map (fun g => enc_field sc re g VNil) (members (f_slot f) fs))) with (@nil Z).
    + replace (forallb (fun g => req_field sc rr g VNil) (members (f_slot f) fs)) with true.
      * split; [apply sim_id|reflexivity].
      * symmetry. apply forallb_forall. intros h Hh. destruct (M h Hh) as [k E].
        unfold req_field. now rewrite E.
    + symmetry. induction (members (f_slot f) fs) as [|h l IH]; [reflexivity|].
      cbn [map concat]. destruct (M h (or_introl eq_refl)) as [k E].
      unfold enc_field at 1. rewrite E. cbn. apply IH. intros. apply M. now right.
  - assert (In g (members (f_slot f) fs)) as Gm.
    { apply filter_In. split.
      - apply (Permutation_in _ (Permutation_sym P)). assumption.
      - unfold is_oneof. rewrite T, Hs. cbn. apply Nat.eqb_refl. }
    assert (NoDup (map f_num (members (f_slot f) fs))) as ND.
    { apply NoDup_map_filter. apply (Permutation_NoDup (l := map f_num (md_fields (md_of sc m)))).
      - apply Permutation_map. now symmetry.
      - now apply wf_NoDup. }
    set (E := fun h => match f_ty h with TField _ k => enc_tagged sc re (f_num h) k x | _ => [] end).
    set (R := fun h => match f_ty h with TField _ k => is_nil x || req_value sc rr k x | _ => true end).
    replace (map (fun g0 => enc_field sc re g0 (VOneof (f_num g) x)) (members (f_slot f) fs))
      with (map (fun h => if f_num g =? f_num h then E h else []) (members (f_slot f) fs)).
    + rewrite (select_concat E g) by assumption.
      replace (forallb (fun g0 => req_field sc rr g0 (VOneof (f_num g) x)) (members (f_slot f) fs)) with (R g).
      * unfold E, R. rewrite T. cbn [size_oneof].
        rewrite (find_field_in sc m g Hwf Hg). cbn in D. split.
        -- apply (sim_ext _ (fun st => do r <- sub_call (marshal_wrapper sc rm g x) st; Ok (fst r))).
           ++ intros st. cbn [marshal_oneof]. now rewrite (find_field_in sc m g Hwf Hg).
           ++ apply wrapper_spec; auto. lia.
        -- apply member_spec; auto. lia.
      * rewrite <- (select_forallb R g (members (f_slot f) fs)) by assumption.
        apply forallb_ext_in. intros h Hh. destruct (M h Hh) as [k' Ek].
        unfold req_field, R. now rewrite Ek.
    + apply map_ext_in. intros h Hh. destruct (M h Hh) as [k' Ek]. unfold enc_field, E. now rewrite Ek.
Qed.

(** SizeVT's walk over the fields. *)
Lemma size_fields_split md slots l : forall seen,
  size_fields sc rs md slots seen l
  = sum_over (fun f => size_field sc rs f (slot slots (f_slot f))) (filter (fun f => negb (is_oneof f)) l)
    + sum_over (fun s => size_oneof sc rs md (slot slots s)) (oneof_slots seen l).
Proof.
  induction l as [|f l IH]; intros seen; cbn [size_fields filter oneof_slots]; [reflexivity|].
  destruct (is_oneof f); cbn [negb].
  - destruct (existsb (Nat.eqb (f_slot f)) seen); rewrite IH; [reflexivity|].
    rewrite sum_over_cons. lia.
  - rewrite IH, sum_over_cons. lia.
Qed.

(** * One message *)
Let md_fields_wt m slots u h : wt_msg sc m (VMsg slots u h) ->
  forall f, In f (md_fields (md_of sc m)) -> wt_field sc (md_of sc m) f (slot slots (f_slot f)).
Proof. intros H. inversion H; subst. assumption. Qed.

Lemma body_size m v : wt_ptrmsg sc m v -> (vdepth v < S n)%nat ->
  size_body sc rs m v = zlen (enc_body sc (order sc strict) re m v).
Proof.
  intros [->|H] D; [reflexivity|]. inversion H as [? slots unk hid Hlen Hf Hu]; subst.
  unfold size_body, enc_body. rewrite zlen_app. f_equal; [|now destruct (md_keep (md_of sc m))].
  assert (forall i, vdepth (slot slots i) < n)%nat as DS.
  { intros i. pose proof (depth_slot slots i unk hid). lia. }
  set (fs := md_fields (md_of sc m)) in *.
  set (e := fun f => enc_field sc re f (slot slots (f_slot f))).
  rewrite (perm_zlen_concat e _ fs) by apply order_perm.
  rewrite size_fields_split.
  rewrite (sum_over_len _ e).
  2:{ intros f Hi. apply filter_In in Hi as [Hi Ho]. apply negb_true_iff in Ho.
      apply (field_spec (md_of sc m)); auto; [now apply (wf_num sc m)|now apply (wf_ty sc m)]. }
  rewrite (sum_over_len _ (fun s => concat (map e (members s fs)))).
  2:{ intros s Hs. apply oneof_slots_in in Hs as (_ & f & Hi & Ho & <-).
      rewrite (map_ext_in e (fun g => enc_field sc re g (slot slots (f_slot f)))).
      - apply (oneof_spec m fs f); auto.
      - intros g Hg. apply filter_In in Hg as [_ Hg]. apply andb_true_iff in Hg as [_ Hg].
        apply Nat.eqb_eq in Hg. unfold e. now rewrite Hg. }
  rewrite <- concat_flat_map. rewrite <- zlen_app, <- concat_app, <- map_app.
  apply perm_zlen_concat.
  rewrite members_perm.
  - apply filter_split_perm.
  - apply oneof_slots_nodup.
  - intros f Hi Ho. apply oneof_slots_in. split; [intros []|]. exists f. auto.
Qed.

Lemma body_sim m v : wt_ptrmsg sc m v -> (vdepth v < S n)%nat ->
  nsim (marshal_body sc rm strict m v) (req_body sc rr m v) (enc_body sc (order sc strict) re m v).
Proof.
  intros [->|H] D.
  - split; cbn; intros.
    + apply zlen_zero in H. subst. reflexivity.
    + pose proof (zlen_nonneg q). change (zlen (@nil Z)) with 0 in H. lia.
  - inversion H as [? slots unk hid Hlen Hf Hu]; subst.
    assert (forall i, vdepth (slot slots i) < n)%nat as DS.
    { intros i. pose proof (depth_slot slots i unk hid). lia. }
    unfold marshal_body, req_body, enc_body. cbv zeta.
    set (md := md_of sc m) in *. set (fs := sort_fields (md_fields md)).
    assert (Permutation fs (md_fields md)) as P by apply sort_perm.
    assert (forall f, In f fs -> In f (md_fields md)) as I by (intros f; apply (Permutation_in _ P)).
    set (e := fun f => enc_field sc re f (slot slots (f_slot f))).
    set (r := fun f => req_field sc rr f (slot slots (f_slot f))).
    set (unkop := marshal_unknown md unk).
    assert (sim unkop true (if md_keep md then unk else [])) as SU.
    { unfold unkop, marshal_unknown. destruct (md_keep md); [apply sim_put_bytes|apply sim_id]. }
    set (rest := fun st : mst => if strict
      then run_all (map (fun f => if is_oneof f then marshal_member sc rm f (slot slots (f_slot f))
                 else marshal_field sc rm f (slot slots (f_slot f))) (rev fs)) st
      else do st <- run_all (map (fun s => marshal_oneof sc rm md (slot slots s)) (oneof_slots [] (rev fs))) st;
           run_all (map (fun f => marshal_field sc rm f (slot slots (f_slot f)))
                        (filter (fun f => negb (is_oneof f)) (rev fs))) st).
    assert (sim rest (forallb r (md_fields md)) (concat (map e (order sc strict m)))) as SR.
    { unfold rest, order. destruct strict.
      - pose proof (sim_run_all (fun f => if is_oneof f then marshal_member sc rm f (slot slots (f_slot f))
                 else marshal_field sc rm f (slot slots (f_slot f))) r e (rev fs)) as X.
        rewrite rev_involutive, forallb_rev, (perm_forallb _ _ _ P) in X. apply X.
        intros f Hi. rewrite <- in_rev in Hi. unfold r, e. destruct (is_oneof f) eqn:O.
        + apply (member_in_order m); auto. 
        + apply (field_spec md); auto; [apply (wf_num sc m)|apply (wf_ty sc m)]; auto.
      - unfold fast_order. change (strict_order sc m) with fs.
        rewrite map_app, concat_app.
        eapply sim_eq.
        + apply (sim_seq (run_all (map (fun s => marshal_oneof sc rm md (slot slots s)) (oneof_slots [] (rev fs))))
                         (run_all (map (fun f => marshal_field sc rm f (slot slots (f_slot f)))
                                       (filter (fun f => negb (is_oneof f)) (rev fs))))).
          * apply (sim_run_all _ (fun s => forallb r (members s fs)) (fun s => concat (map e (members s fs)))).
            intros s Hs. apply oneof_slots_in in Hs as (_ & f & Hi & Ho & <-).
            rewrite <- in_rev in Hi. pose proof (I f Hi) as Hi'.
            destruct (oneof_spec m fs f (slot slots (f_slot f)) P Hi' Ho (Hf f Hi') (DS _)) as [S _].
            eapply sim_eq; [exact S| |].
            -- apply forallb_ext_in. intros g Hg. apply filter_In in Hg as [_ Hg].
               apply andb_true_iff in Hg as [_ Hg]. apply Nat.eqb_eq in Hg. unfold r. now rewrite Hg.
            -- f_equal. apply map_ext_in. intros g Hg. apply filter_In in Hg as [_ Hg].
               apply andb_true_iff in Hg as [_ Hg]. apply Nat.eqb_eq in Hg. unfold e. now rewrite Hg.
          * apply (sim_run_all _ r e). intros f Hi. apply filter_In in Hi as [Hi Ho].
            rewrite <- in_rev in Hi. apply negb_true_iff in Ho.
            apply (field_spec md); auto; [apply (wf_num sc m)|apply (wf_ty sc m)]; auto.
        + rewrite filter_rev, forallb_rev, <- forallb_flat_map.
          rewrite andb_comm, <- forallb_app. apply perm_forallb. rewrite <- P.
          rewrite members_perm.
          * apply filter_split_perm.
          * apply oneof_slots_nodup.
          * intros f Hi Ho. apply oneof_slots_in. split; [intros []|]. exists f.
            rewrite <- in_rev. auto.
        + rewrite filter_rev, rev_involutive. f_equal. now rewrite concat_flat_map. }
    pose proof (sim_seq unkop rest _ _ _ _ SU SR) as X. cbn [andb] in X.
    apply nsim_of_sim in X. destruct X as [X1 X2]. split.
    + intros p q Hq. specialize (X1 p q Hq). unfold rest in X1. fold unkop.
      destruct (unkop (p ++ q, zlen (p ++ q))); exact X1.
    + intros q Hq. specialize (X2 q Hq). unfold rest in X2. fold unkop.
      destruct (unkop (q, zlen q)); exact X2.
Qed.
End Step.

Lemma marshal_main sc strict : wf_schema sc = true -> up_enc_ok sc ->
  forall n m v, wt_ptrmsg sc m v -> (vdepth v < n)%nat ->
  nsim (marshal_msg sc strict n m v) (req_msg sc n m v) (enc_msg sc (order sc strict) n m v)
  /\ size_msg sc n m v = zlen (enc_msg sc (order sc strict) n m v).
Proof.
  intros W U. induction n as [|n IH]; intros m v H D; [lia|].
  assert (forall m, enc_msg sc (order sc strict) n m VNil = []) as N by (destruct n; reflexivity).
  split.
  - apply (body_sim sc strict W U n (marshal_msg sc strict n) (size_msg sc n)); auto.
  - apply (body_size sc strict W U n (marshal_msg sc strict n) (size_msg sc n) _ (req_msg sc n)); auto.
Qed.

Lemma marshal_top sc strict m v : wf_schema sc = true -> up_enc_ok sc -> wt_ptrmsg sc m v ->
  nsim (MarshalToSizedBufferVT sc strict m v) (Initialized sc m v) (Encoding sc (order sc strict) m v)
  /\ SizeVT sc m v = zlen (Encoding sc (order sc strict) m v).
Proof. intros. apply marshal_main; auto. Qed.
