(** Simulation of the backward writers by the specification: primitive writers. *)
From Coq Require Import ZArith List Bool Lia.
From Verif Require Import Base BaseFacts Schema Value Helpers WireSpec Typing VarintFacts Size Marshal.
Import ListNotations.
Open Scope Z_scope.

(** Zig-zag *)
Lemma lxor_ones n a : 0 <= n -> 0 <= a < 2^n -> Z.lxor a (2^n - 1) = 2^n - 1 - a.
Proof.
  intros Hn Ha. replace (2^n - 1) with (Z.ones n) by (rewrite Z.ones_equiv; lia).
  rewrite Z.sub_nocarry_ldiff.
  - apply Z.bits_inj'. intros i Hi. rewrite Z.lxor_spec, Z.ldiff_spec.
    destruct (i <? n) eqn:E.
    + rewrite Z.ones_spec_low by lia. now destruct (Z.testbit a i).
    + rewrite Z.ones_spec_high by lia. replace (Z.testbit a i) with false; [reflexivity|].
      symmetry. replace a with (a mod 2^n) by (apply Z.mod_small; lia).
      rewrite testbit_mod_pow2 by lia. now rewrite E.
  - apply Z.bits_inj'. intros i Hi. rewrite Z.ldiff_spec, Z.bits_0.
    destruct (i <? n) eqn:E.
    + rewrite Z.ones_spec_low by lia. apply andb_false_r.
    + replace (Z.testbit a i) with false; [reflexivity|].
      symmetry. replace a with (a mod 2^n) by (apply Z.mod_small; lia).
      rewrite testbit_mod_pow2 by lia. now rewrite E.
Qed.

Lemma shiftr_sign x n : 0 <= n -> - 2^n <= x < 2^n -> Z.shiftr x n = if x <? 0 then -1 else 0.
Proof.
  intros Hn H. rewrite Z.shiftr_div_pow2 by lia.
  assert (0 < 2^n) by (apply Z.pow_pos_nonneg; lia).
  destruct (x <? 0) eqn:E.
  - symmetry. apply Z.div_unique with (x + 2^n); lia.
  - apply Z.div_small. lia.
Qed.

Lemma zigzag64_spec x : -9223372036854775808 <= x < 9223372036854775808 -> zigzag64 x = zz x.
Proof.
  intros H. unfold zigzag64, zz.
  rewrite (shiftr_sign x 63) by (try lia; change (2^63) with 9223372036854775808; lia).
  replace (u64 (Z.shiftl (u64 x) 1)) with ((2 * x) mod 18446744073709551616).
  - destruct (x <? 0) eqn:E.
    + replace ((2 * x) mod 18446744073709551616) with (2 * x + 18446744073709551616).
      * change (u64 (-1)) with (2^64 - 1). rewrite lxor_ones by (try lia; change (2^64) with 18446744073709551616; lia).
        change (2^64) with 18446744073709551616. lia.
      * apply Z.mod_unique with (-1); lia.
    + change (u64 0) with 0. rewrite Z.lxor_0_r. apply Z.mod_small. lia.
  - unfold u64. rewrite Z.shiftl_mul_pow2 by lia. change (2^1) with 2.
    rewrite Z.mul_mod_idemp_l by lia. f_equal. lia.
Qed.

Lemma zigzag32_spec x : -2147483648 <= x < 2147483648 -> zigzag32 x = zz x.
Proof.
  intros H. unfold zigzag32, zz.
  rewrite (shiftr_sign x 31) by (try lia; change (2^31) with 2147483648; lia).
  replace (u32 (Z.shiftl (u32 x) 1)) with ((2 * x) mod 4294967296).
  - destruct (x <? 0) eqn:E.
    + replace ((2 * x) mod 4294967296) with (2 * x + 4294967296).
      * change (u32 (-1)) with (2^32 - 1). rewrite lxor_ones by (try lia; change (2^32) with 4294967296; lia).
        change (2^32) with 4294967296. lia.
      * apply Z.mod_unique with (-1); lia.
    + change (u32 0) with 0. rewrite Z.lxor_0_r. apply Z.mod_small. lia.
  - unfold u32. rewrite Z.shiftl_mul_pow2 by lia. change (2^1) with 2.
    rewrite Z.mul_mod_idemp_l by lia. f_equal. lia.
Qed.

Lemma zz_nonneg x : 0 <= zz x. Proof. unfold zz. destruct (x <? 0) eqn:E; lia. Qed.

Lemma SizeOfZigzag_len x : -9223372036854775808 <= x < 9223372036854775808 ->
  SizeOfZigzag (u64 x) = zlen (varint (zz x)).
Proof.
  intros H. rewrite <- zigzag64_spec by lia. unfold SizeOfZigzag, zigzag64.
  rewrite s64_u64, (s64_id x) by lia. apply SizeOfVarint_len.
  apply Z.lxor_nonneg. pose proof (u64_range (Z.shiftl (u64 x) 1)). pose proof (u64_range (Z.shiftr x 63)).
  lia.
Qed.

(** Keys *)
Lemma key_value num wt : 0 <= num < 536870912 -> 0 <= wt < 8 ->
  Z.lor (u32 (Z.shiftl (u32 num) 3)) (u32 wt) = num * 8 + wt.
Proof.
  intros Hn Hw. rewrite (u32_id num), (u32_id wt) by lia.
  rewrite Z.shiftl_mul_pow2 by lia. change (2^3) with 8. rewrite u32_id by lia.
  assert (Z.land (num * 8) wt = 0) as L.
  { apply Z.bits_inj'. intros n Hi. rewrite Z.land_spec, Z.bits_0.
    destruct (n <? 3) eqn:E.
    - change 8 with (2^3). rewrite <- Z.shiftl_mul_pow2, Z.shiftl_spec_low by lia. reflexivity.
    - replace wt with (wt mod 2^3) by (apply Z.mod_small; change (2^3) with 8; lia).
      rewrite testbit_mod_pow2 by lia. rewrite E. apply andb_false_r. }
  rewrite <- Z.lxor_lor, <- Z.add_nocarry_lxor by assumption. reflexivity.
Qed.

Lemma key_bytes_spec fuel : forall x, 0 <= x < 2 ^ (7 * Z.of_nat fuel) -> (1 <= fuel)%nat ->
  key_bytes fuel x = varint x.
Proof.
  induction fuel as [|fuel IH]; intros x Hx Hf; [lia|]. cbn [key_bytes].
  destruct (127 <? x) eqn:E.
  - rewrite varint_big by lia. rewrite Z.lor_comm, land127, lor128, shiftr7
      by (apply Z.mod_pos_bound; lia).
    f_equal. apply IH.
    + split; [apply Z.div_pos; lia|]. apply Z.div_lt_upper_bound; [lia|].
      replace (128 * 2 ^ (7 * Z.of_nat fuel)) with (2 ^ (7 * Z.of_nat (S fuel))); [lia|].
      replace (7 * Z.of_nat (S fuel)) with (7 + 7 * Z.of_nat fuel) by lia.
      rewrite Z.pow_add_r by lia. reflexivity.
    + destruct fuel; [|lia]. change (2 ^ (7 * Z.of_nat 1)) with 128 in Hx. lia.
  - now rewrite varint_small by lia.
Qed.

Lemma key_bytes_tag num wt : 0 <= num < 536870912 -> 0 <= wt < 8 ->
  key_bytes 5 (num * 8 + wt) = tag num wt.
Proof.
  intros. unfold tag. apply key_bytes_spec; [|lia].
  change (2 ^ (7 * Z.of_nat 5)) with 34359738368. lia.
Qed.

Lemma key_size_loop_len fuel : forall x size, 0 <= x < 2 ^ (7 * Z.of_nat (S fuel)) ->
  key_size_loop fuel x size = size + zlen (varint x) - 1.
Proof.
  induction fuel as [|fuel IH]; intros x size Hx.
  - cbn [key_size_loop]. change (2 ^ (7 * Z.of_nat 1)) with 128 in Hx.
    rewrite varint_small by lia. change (zlen [x]) with 1. lia.
  - cbn [key_size_loop]. destruct (127 <? x) eqn:E.
    + rewrite shiftr7, IH.
      * rewrite (varint_big x), zlen_cons by lia. lia.
      * split; [apply Z.div_pos; lia|]. apply Z.div_lt_upper_bound; [lia|].
        replace (128 * 2 ^ (7 * Z.of_nat (S fuel))) with (2 ^ (7 * Z.of_nat (S (S fuel)))); [lia|].
        replace (7 * Z.of_nat (S (S fuel))) with (7 + 7 * Z.of_nat (S fuel)) by lia.
        rewrite Z.pow_add_r by lia. reflexivity.
    + rewrite varint_small by lia. change (zlen [x]) with 1. lia.
Qed.

Lemma KeySize_len num wt : 0 <= num < 536870912 -> 0 <= wt < 8 ->
  KeySize num wt = zlen (tag num wt).
Proof.
  intros. unfold KeySize. rewrite key_value by lia. rewrite key_size_loop_len.
  - unfold tag. lia.
  - change (2 ^ (7 * Z.of_nat 6)) with 4398046511104. lia.
Qed.

Lemma wire_same k : ProtoWireType k = wire_of k.
Proof. destruct k; reflexivity. Qed.
Lemma wire_range k : 0 <= wire_of k < 8.
Proof. destruct k; cbn; lia. Qed.

(** * Simulation *)
Definition outcome {A} (ok : bool) (r : res unit A) (st : A) : Prop :=
  if ok then r = Ok st else exists e, r = Err e tt.

(** The code panicked or returned an error. *)
Definition failed {A} (r : res unit A) : Prop := r = Panic \/ exists e, r = Err e tt.
Lemma failed_bind {A B} (r : res unit A) (f : A -> res unit B) : failed r -> failed (rbind r f).
Proof. intros [-> | [e ->]]; [now left|right; now exists e]. Qed.

(** [op] writes [bs] just below the index, touching nothing else, if there is
    room; fails (error) when not [ok]; and without room it panics or fails. *)
Definition sim (op : mst -> mres) (ok : bool) (bs : list Z) : Prop :=
  (forall p q s, zlen q = zlen bs ->
     outcome ok (op (p ++ q ++ s, zlen p + zlen q)) (p ++ bs ++ s, zlen p))
  /\ (forall q s, zlen q < zlen bs -> failed (op (q ++ s, zlen q))).

Lemma sim_ext op op' ok bs : (forall st, op st = op' st) -> sim op' ok bs -> sim op ok bs.
Proof. intros E [H1 H2]. split; intros; rewrite E; auto. Qed.

Lemma sim_id : sim (fun st => Ok st) true [].
Proof.
  split; intros.
  - apply zlen_zero in H. subst. cbn. f_equal. f_equal. unfold zlen. cbn. lia.
  - change (zlen (@nil Z)) with 0 in H. pose proof (zlen_nonneg q). lia.
Qed.

Lemma sim_seq op1 op2 ok1 ok2 b1 b2 : sim op1 ok1 b1 -> sim op2 ok2 b2 ->
  sim (fun st => do st' <- op1 st; op2 st') (ok1 && ok2) (b2 ++ b1).
Proof.
  intros [A1 A2] [B1 B2]. split.
  - intros p q s Hq. rewrite zlen_app in Hq.
    pose proof (zlen_nonneg b1). pose proof (zlen_nonneg b2).
    destruct (split_at q (zlen b2)) as (q2 & q1 & -> & L2); [lia|].
    rewrite zlen_app in *. specialize (A1 (p ++ q2) q1 s ltac:(lia)).
    rewrite <- !app_assoc in *. rewrite zlen_app in A1.
    replace (zlen p + (zlen q2 + zlen q1)) with (zlen p + zlen q2 + zlen q1) by lia.
    destruct ok1; cbn [outcome andb] in *.
    + rewrite A1. cbn [rbind]. apply B1. lia.
    + destruct A1 as [e ->]. cbn. eauto.
  - intros q s Hq. rewrite zlen_app in Hq.
    destruct (Z_lt_dec (zlen q) (zlen b1)) as [L|L].
    + apply failed_bind. now apply A2.
    + pose proof (zlen_nonneg b1).
      destruct (split_at q (zlen q - zlen b1)) as (q2 & q1 & -> & L2); [lia|].
      rewrite zlen_app in *. specialize (A1 q2 q1 s ltac:(lia)). rewrite <- app_assoc.
      destruct ok1; cbn [outcome] in A1.
      * rewrite A1. cbn [rbind]. apply B2. lia.
      * destruct A1 as [e ->]. right. now exists e.
Qed.

Lemma sim_put_byte b : sim (put_byte b) true [b].
Proof.
  split; intros; cbn in *.
  - destruct q as [|x [|y q]]; rewrite ?zlen_cons in H; change (zlen [b]) with 1 in H;
      try (change (zlen (@nil Z)) with 0 in H; lia); try (pose proof (zlen_nonneg q); lia).
    change (zlen [x]) with 1. replace (zlen p + 1 - 1) with (zlen p) by lia.
    cbn [app]. now rewrite zset_app.
  - change (zlen [b]) with 1 in H. pose proof (zlen_nonneg q).
    rewrite zset_neg by lia. now left.
Qed.

Lemma sim_put_bytes bs : sim (put_bytes bs) true bs.
Proof.
  split; intros; cbn in *.
  - replace (zlen p + zlen q - zlen bs) with (zlen p) by lia.
    rewrite zcopy_app by assumption. reflexivity.
  - rewrite zcopy_neg by lia. now left.
Qed.

Lemma sim_put_fixed n v : sim (put_fixed n v) true (le_bytes n v).
Proof.
  assert (zlen (le_bytes n v) = Z.of_nat n) as L by (unfold zlen; now rewrite le_bytes_len).
  split; intros; cbn in *; rewrite L in *.
  - rewrite !zlen_app. pose proof (zlen_nonneg s).
    replace (_ <? _) with false by lia.
    replace (zlen p + zlen q - Z.of_nat n) with (zlen p) by lia.
    rewrite le_put_spec, zcopy_app by lia. reflexivity.
  - destruct (_ <? _); [now left|]. rewrite zcopy_neg by lia. now left.
Qed.

Lemma sim_encodeVarint v : 0 <= v -> sim (encodeVarint v) true (varint v).
Proof.
  intros Hv. split; intros; cbn in *; unfold encodeVarint, EncodeVarint; cbn [fst snd].
  - rewrite SizeOfVarint_len by lia.
    replace (zlen p + zlen q - zlen (varint v)) with (zlen p) by lia.
    rewrite varint_loop_ok by (auto using varint_fuel_enough). reflexivity.
  - rewrite SizeOfVarint_len by lia. unfold varint_fuel.
    rewrite varint_loop_neg by lia. now left.
Qed.

Lemma sim_run_all {A} (g : A -> mst -> mres) (ok : A -> bool) (e : A -> list Z) l :
  (forall x, In x l -> sim (g x) (ok x) (e x)) ->
  sim (run_all (map g l)) (forallb ok l) (concat (map e (rev l))).
Proof.
  induction l as [|x l IH]; intros H.
  - cbn. apply sim_id.
  - cbn [map run_all forallb rev]. rewrite map_app, concat_app. cbn [map concat].
    rewrite app_nil_r. apply (sim_seq (g x) (run_all (map g l))).
    + apply H. now left.
    + apply IH. intros. apply H. now right.
Qed.

Lemma concat_singletons (l : list Z) : concat (map (fun b => [b]) l) = l.
Proof. induction l; cbn; congruence. Qed.

Lemma sim_encodeKey num wt : 0 <= num < 536870912 -> 0 <= wt < 8 ->
  sim (encodeKey num wt) true (tag num wt).
Proof.
  intros. unfold encodeKey. rewrite key_value, key_bytes_tag by lia. cbv zeta.
  pose proof (sim_run_all put_byte (fun _ => true) (fun b => [b]) (rev (tag num wt))
    (fun x _ => sim_put_byte x)) as S.
  rewrite rev_involutive, concat_singletons in S.
  replace (forallb (fun _ : Z => true) (rev (tag num wt))) with true in S; [exact S|].
  symmetry. apply forallb_forall. reflexivity.
Qed.

Lemma sim_encodeBool v : sim (encodeBool v) true [if v =? 0 then 0 else 1].
Proof. apply sim_put_byte. Qed.

Lemma sim_encodeFixed64 v : sim (encodeFixed64 v) true (le_bytes 8 (v mod 18446744073709551616)).
Proof. apply sim_put_fixed. Qed.
Lemma sim_encodeFixed32 v : sim (encodeFixed32 v) true (le_bytes 4 (v mod 4294967296)).
Proof. apply sim_put_fixed. Qed.

(** A writer that works on a whole buffer (from its end) and returns a size. *)
Definition nsim (callee : list Z -> res unit (list Z * Z)) (ok : bool) (bs : list Z) : Prop :=
  (forall p q, zlen q = zlen bs -> outcome ok (callee (p ++ q)) (p ++ bs, zlen bs))
  /\ (forall q, zlen q < zlen bs -> failed (callee q)).

Lemma nsim_of_sim op ok bs : sim op ok bs ->
  nsim (fun buf => do st <- op (buf, zlen buf); Ok (fst st, zlen buf - snd st)) ok bs.
Proof.
  intros [H1 H2]. split.
  - intros p q Hq. specialize (H1 p q [] Hq). rewrite !app_nil_r in H1. rewrite zlen_app.
    destruct ok; cbn [outcome] in *.
    + rewrite H1. cbn. do 2 f_equal. lia.
    + destruct H1 as [e ->]. cbn. eauto.
  - intros q Hq. specialize (H2 q []). rewrite app_nil_r in H2. now apply failed_bind, H2.
Qed.

Lemma sub_call_ok callee bs p q s : nsim callee true bs -> zlen q = zlen bs ->
  sub_call callee (p ++ q ++ s, zlen p + zlen q) = Ok ((p ++ bs ++ s, zlen p), zlen bs).
Proof.
  intros [H1 _] Hq. unfold sub_call.
  replace (zlen p + zlen q) with (zlen (p ++ q)) by apply zlen_app.
  rewrite (app_assoc p q s), zslice_pre. cbn [orpanic rbind].
  rewrite (H1 p q Hq). cbn [rbind].
  rewrite to_nat_zlen, skipn_app_len, <- app_assoc, zlen_app. do 3 f_equal. lia.
Qed.
Lemma sub_call_err callee bs p q s : nsim callee false bs -> zlen q = zlen bs ->
  exists e, sub_call callee (p ++ q ++ s, zlen p + zlen q) = Err e tt.
Proof.
  intros [H1 _] Hq. unfold sub_call.
  replace (zlen p + zlen q) with (zlen (p ++ q)) by apply zlen_app.
  rewrite (app_assoc p q s), zslice_pre. cbn [orpanic rbind].
  destruct (H1 p q Hq) as [e ->]. cbn. eauto.
Qed.
Lemma sub_call_short callee ok bs q s : nsim callee ok bs -> zlen q < zlen bs ->
  failed (sub_call callee (q ++ s, zlen q)).
Proof.
  intros [_ H2] Hq. unfold sub_call. rewrite zslice_pre. cbn [orpanic rbind].
  now apply failed_bind, H2.
Qed.

Lemma sim_sub_call callee ok bs : nsim callee ok bs ->
  sim (fun st => do r <- sub_call callee st; Ok (fst r)) ok bs.
Proof.
  intros H. split.
  - intros p q s Hq. destruct ok; cbn [outcome].
    + rewrite (sub_call_ok _ bs) by assumption. reflexivity.
    + destruct (sub_call_err _ _ p q s H Hq) as [e ->]. cbn. eauto.
  - intros q s Hq. apply failed_bind. now apply (sub_call_short callee ok bs).
Qed.

Lemma sim_sub_call_varint callee ok bs : nsim callee ok bs ->
  sim (fun st => do r <- sub_call callee st; let (st, size) := r in encodeVarint size st) ok (ld bs).
Proof.
  intros H. unfold ld. pose proof (zlen_nonneg bs).
  pose proof (sim_encodeVarint (zlen bs) ltac:(lia)) as [V1 V2]. split.
  - intros p q s Hq. rewrite zlen_app in Hq. pose proof (zlen_nonneg (varint (zlen bs))).
    destruct (split_at q (zlen (varint (zlen bs)))) as (q2 & q1 & -> & L); [lia|].
    rewrite zlen_app in *. rewrite <- !app_assoc.
    replace (zlen p + (zlen q2 + zlen q1)) with (zlen (p ++ q2) + zlen q1) by (rewrite zlen_app; lia).
    rewrite (app_assoc p q2). destruct ok; cbn [outcome].
    + rewrite (sub_call_ok _ bs) by (auto; lia). cbn [rbind].
      rewrite <- app_assoc, zlen_app. apply V1. lia.
    + destruct (sub_call_err _ _ (p ++ q2) q1 s H) as [e ->]; [lia|]. cbn. eauto.
  - intros q s Hq. rewrite zlen_app in Hq.
    destruct (Z_lt_dec (zlen q) (zlen bs)) as [L|L].
    + apply failed_bind. now apply (sub_call_short callee ok bs).
    + destruct (split_at q (zlen q - zlen bs)) as (q2 & q1 & -> & L2); [lia|].
      rewrite zlen_app in *. rewrite <- app_assoc. destruct ok.
      * rewrite (sub_call_ok _ bs) by (auto; lia). cbn [rbind]. apply V2. lia.
      * destruct (sub_call_err _ _ q2 q1 s H) as [e ->]; [lia|]. right. now exists e.
Qed.

(** A writer followed by the length of what it wrote. *)
Lemma sim_measured op ok bs : sim op ok bs ->
  sim (fun st => do st' <- op st; encodeVarint (snd st - snd st') st') ok (ld bs).
Proof.
  intros [H1 H2]. unfold ld. pose proof (zlen_nonneg bs).
  pose proof (sim_encodeVarint (zlen bs) ltac:(lia)) as [V1 V2]. split.
  - intros p q s Hq. rewrite zlen_app in Hq. pose proof (zlen_nonneg (varint (zlen bs))).
    destruct (split_at q (zlen (varint (zlen bs)))) as (q2 & q1 & -> & L); [lia|].
    rewrite zlen_app in *. rewrite <- !app_assoc.
    replace (zlen p + (zlen q2 + zlen q1)) with (zlen (p ++ q2) + zlen q1) by (rewrite zlen_app; lia).
    rewrite (app_assoc p q2). specialize (H1 (p ++ q2) q1 s ltac:(lia)).
    destruct ok; cbn [outcome] in *.
    + rewrite H1. cbn [rbind snd].
      replace (zlen (p ++ q2) + zlen q1 - zlen (p ++ q2)) with (zlen bs) by lia.
      rewrite <- app_assoc, zlen_app. apply V1. lia.
    + destruct H1 as [e ->]. cbn. eauto.
  - intros q s Hq. rewrite zlen_app in Hq.
    destruct (Z_lt_dec (zlen q) (zlen bs)) as [L|L].
    + apply failed_bind. now apply H2.
    + destruct (split_at q (zlen q - zlen bs)) as (q2 & q1 & -> & L2); [lia|].
      rewrite zlen_app in *. rewrite <- app_assoc. specialize (H1 q2 q1 s ltac:(lia)).
      destruct ok; cbn [outcome] in *.
      * rewrite H1. cbn [rbind snd].
        replace (zlen q2 + zlen q1 - zlen q2) with (zlen bs) by lia. apply V2. lia.
      * destruct H1 as [e ->]. right. now exists e.
Qed.

(** Sums *)
Lemma sum_over_acc {A} (f : A -> Z) l : forall n, fold_left (fun n e => n + f e) l n = n + sum_over f l.
Proof.
  unfold sum_over. induction l as [|x l IH]; intros n; cbn [fold_left].
  - lia.
  - rewrite IH. rewrite (IH (0 + f x)). lia.
Qed.
Lemma sum_over_cons {A} (f : A -> Z) x l : sum_over f (x :: l) = f x + sum_over f l.
Proof. unfold sum_over at 1. cbn [fold_left]. rewrite sum_over_acc. lia. Qed.
Lemma sum_over_len {A} (f : A -> Z) (e : A -> list Z) l :
  (forall x, In x l -> f x = zlen (e x)) -> sum_over f l = zlen (concat (map e l)).
Proof.
  induction l as [|x l IH]; intros H; [reflexivity|].
  rewrite sum_over_cons. cbn [map concat]. rewrite zlen_app, IH, (H x) by auto with datatypes.
  reflexivity.
Qed.
Lemma sum_over_const {A} (c : Z) (e : A -> list Z) l :
  (forall x, In x l -> zlen (e x) = c) -> zlen (concat (map e l)) = c * zlen l.
Proof.
  induction l as [|x l IH]; intros H; [unfold zlen; cbn; lia|].
  cbn [map concat]. rewrite zlen_app, zlen_cons, IH, (H x) by auto with datatypes.
  lia.
Qed.
Lemma zlen_concat_rev {A} (e : A -> list Z) l :
  zlen (concat (map e (rev l))) = zlen (concat (map e l)).
Proof.
  induction l as [|x l IH]; [reflexivity|]. cbn [rev map concat].
  rewrite map_app, concat_app, !zlen_app, IH. cbn [map concat]. rewrite app_nil_r. lia.
Qed.

(** Packed varints, written forward. *)
Lemma packed_fwd_ok k l : forall p q s,
  (forall e, In e l -> 0 <= varint_arg k (vint e)) ->
  zlen q = zlen (concat (map (fun e => varint (varint_arg k (vint e))) l)) ->
  packed_fwd k l (p ++ q ++ s) (zlen p)
  = Ok (p ++ concat (map (fun e => varint (varint_arg k (vint e))) l) ++ s, zlen p + zlen q).
Proof.
  induction l as [|e l IH]; intros p q s Hl Hq; cbn [packed_fwd map concat] in *.
  - apply zlen_zero in Hq. subst. cbn. f_equal. f_equal. unfold zlen. cbn. lia.
  - rewrite zlen_app in Hq. set (b := varint (varint_arg k (vint e))) in *.
    pose proof (zlen_nonneg b). pose proof (zlen_nonneg (concat (map (fun e => varint (varint_arg k (vint e))) l))).
    destruct (split_at q (zlen b)) as (q1 & q2 & -> & L); [lia|].
    rewrite zlen_app in *. rewrite <- !app_assoc. cbv zeta.
    rewrite varint_loop_ok; auto using varint_fuel_enough; [|apply Hl; now left].
    cbn [rbind fst snd]. rewrite (app_assoc p). rewrite L. fold b.
    replace (zlen p + zlen b) with (zlen (p ++ b)) by apply zlen_app.
    rewrite IH.
    + rewrite <- app_assoc, zlen_app. do 2 f_equal. lia.
    + intros. apply Hl. now right.
    + lia.
Qed.
