(** Decoding of numbers. *)
From Coq Require Import ZArith List Bool Lia.
From Verif Require Import Base BaseFacts Schema Value Helpers WireSpec RecordSpec Typing VarintFacts SimFacts SkipFacts Unmarshal.
Import ListNotations.
Open Scope Z_scope.

Lemma land1 v : Z.land v 1 = v mod 2.
Proof. change 1 with (Z.ones 1). now rewrite Z.land_ones by lia. Qed.

Lemma unzigzag32_spec v : unzigzag32 (s32 v) = unzz (v mod 4294967296).
Proof.
  unfold unzigzag32, unzz. rewrite u32_s32, land1. unfold u32 at 1.
  assert (s32 v mod 2 = (v mod 4294967296) mod 2) as ->.
  { rewrite <- s32_mod.
    rewrite (Z.mod_eq (s32 v) 4294967296) at 1 by lia.
    replace (s32 v - 4294967296 * (s32 v / 4294967296))
      with (s32 v + (- (2147483648 * (s32 v / 4294967296))) * 2) by lia.
    now rewrite Z.mod_add by lia. }
  set (n := v mod 4294967296).
  assert (0 <= n < 4294967296) as Hn by (apply Z.mod_pos_bound; lia).
  rewrite Z.shiftr_div_pow2 by lia. change (2^1) with 2.
  assert (0 <= n / 2 < 2147483648).
  { split; [apply Z.div_pos; lia|apply Z.div_lt_upper_bound; lia]. }
  pose proof (Zmod_even n) as E. destruct (Z.even n).
  - rewrite E. change (Z.shiftr (s32 (Z.shiftl 0 31)) 31) with 0. change (u32 0) with 0.
    rewrite Z.lxor_0_r. apply s32_id. lia.
  - rewrite E. change (Z.shiftr (s32 (Z.shiftl 1 31)) 31) with (-1). change (u32 (-1)) with (2^32-1).
    rewrite lxor_ones by (try lia; change (2^32) with 4294967296; lia).
    change (2^32) with 4294967296.
    rewrite (s32_cong _ (- (n / 2) - 1)).
    + apply s32_id. lia.
    + replace (4294967296 - 1 - n / 2) with (- (n / 2) - 1 + 1 * 4294967296) by lia.
      now rewrite Z.mod_add by lia.
Qed.

Lemma unzigzag64_spec v : 0 <= v < 18446744073709551616 -> unzigzag64 v = unzz v.
Proof.
  intros Hn. unfold unzigzag64, unzz. rewrite land1.
  rewrite Z.shiftr_div_pow2 by lia. change (2^1) with 2.
  assert (0 <= v / 2 < 9223372036854775808).
  { split; [apply Z.div_pos; lia|apply Z.div_lt_upper_bound; lia]. }
  pose proof (Zmod_even v) as E. destruct (Z.even v).
  - rewrite E. change (Z.shiftr (s64 (Z.shiftl 0 63)) 63) with 0. change (u64 0) with 0.
    rewrite Z.lxor_0_r. apply s64_id. lia.
  - rewrite E. change (Z.shiftr (s64 (Z.shiftl 1 63)) 63) with (-1). change (u64 (-1)) with (2^64-1).
    rewrite lxor_ones by (try lia; change (2^64) with 18446744073709551616; lia).
    change (2^64) with 18446744073709551616.
    rewrite (s64_cong _ (- (v / 2) - 1)).
    + apply s64_id. lia.
    + replace (18446744073709551616 - 1 - v / 2) with (- (v / 2) - 1 + 1 * 18446744073709551616) by lia.
      now rewrite Z.mod_add by lia.
Qed.

Lemma unzz_zz x : unzz (zz x) = x.
Proof.
  unfold unzz, zz. destruct (x <? 0) eqn:E.
  - replace (-2 * x - 1) with (1 + 2 * (-x - 1)) by lia. rewrite Z.even_add_mul_2. cbn [Z.even].
    replace (1 + 2 * (-x - 1)) with (1 + (-x - 1) * 2) by lia.
    rewrite Z.div_add by lia. change (1 / 2) with 0. lia.
  - rewrite Z.even_mul. cbn [Z.even orb]. rewrite Z.mul_comm, Z.div_mul by lia. reflexivity.
Qed.

Lemma unzz_range n b : 0 <= n < 2 * b -> - b <= unzz n < b.
Proof.
  intros H. unfold unzz. assert (0 <= n / 2 < b).
  { split; [apply Z.div_pos; lia|apply Z.div_lt_upper_bound; lia]. }
  destruct (Z.even n); lia.
Qed.

Definition varint_kind (k : kind) : bool := wire_of k =? 0.

Lemma conv_varint k : conv_ok (varint_conv k).
Proof. destruct k; cbn; auto using conv_u64, conv_s64, conv_u32, conv_s32. Qed.

Lemma s64_zero v : s64 v = 0 <-> v mod 18446744073709551616 = 0.
Proof.
  unfold s64. cbv zeta. pose proof (Z.mod_pos_bound v 18446744073709551616 ltac:(lia)).
  destruct (_ <? _) eqn:E; lia.
Qed.

Lemma varint_post_spec k v : wire_of k = 0 ->
  varint_post k (varint_conv k v) = varint_num k v.
Proof.
  intros H. destruct k; try discriminate; cbn; try reflexivity.
  - destruct (s64 v =? 0) eqn:A; destruct (v mod 18446744073709551616 =? 0) eqn:B; auto;
      pose proof (s64_zero v); lia.
  - apply unzigzag32_spec.
  - unfold u64. apply unzigzag64_spec. apply Z.mod_pos_bound. lia.
Qed.

Lemma decodeFixed_ok n p bs s : zlen bs = Z.of_nat n -> bytes_ok bs = true -> small (p ++ bs ++ s) ->
  decodeFixed n (p ++ bs ++ s) (zlen p) = Ok (le_val bs, zlen p + zlen bs).
Proof.
  intros Hl Hb Hs. unfold decodeFixed, small in *. rewrite <- Hl.
  pose proof (zlen_nonneg p). pose proof (zlen_nonneg bs). pose proof (zlen_nonneg s).
  rewrite !zlen_app in *. rewrite s64_id by lia. replace (_ <? _) with false by lia.
  rewrite zslice_app. cbn [orpanic rbind]. now rewrite le_get_val.
Qed.

Lemma decodeNumber_ok k bs z p s : num_wire k bs z -> bytes_ok bs = true -> small (p ++ bs ++ s) ->
  decodeNumber k 0 (p ++ bs ++ s) (zlen p) = Ok (z, zlen p + zlen bs).
Proof.
  intros H Hb Hs. unfold num_wire in H. unfold decodeNumber.
  assert (wire_of k = 0 -> is_varint bs = true /\ zlen bs <= 10 /\ z = varint_num k (vval bs) ->
    decodeVarint (varint_conv k) 0 (p ++ bs ++ s) (zlen p) = Ok (varint_conv k (vval bs), zlen p + zlen bs)
    /\ z = varint_post k (varint_conv k (vval bs))) as V.
  { intros W (H1 & H2 & ->). rewrite (decodeVarint_ok _ 0 bs p s (conv_varint k) H1 H2).
    rewrite Z.lor_0_l. split; [reflexivity|]. now rewrite varint_post_spec. }
  destruct k; cbn [wire_of classify] in *; try contradiction;
    try (destruct H as [H1 ->]; first [rewrite (decodeFixed_ok 8 p bs s)|rewrite (decodeFixed_ok 4 p bs s)];
         auto; reflexivity);
    destruct (V eq_refl H) as [E1 E2]; rewrite E1, E2; reflexivity.
Qed.

Lemma decodeFixed_any n p rest : bytes_ok rest = true -> small (p ++ rest) -> Z.of_nat n < 9 ->
  (exists bs s, rest = bs ++ s /\ zlen bs = Z.of_nat n /\
     decodeFixed n (p ++ rest) (zlen p) = Ok (le_val bs, zlen p + zlen bs)) \/
  (exists e, decodeFixed n (p ++ rest) (zlen p) = Err e tt).
Proof.
  intros Hb Hs Hn. pose proof Hs as Hs'. unfold small in Hs'. rewrite zlen_app in Hs'.
  pose proof (zlen_nonneg p). pose proof (zlen_nonneg rest).
  destruct (Z_le_dec (Z.of_nat n) (zlen rest)) as [L|L].
  - left. destruct (split_at rest (Z.of_nat n)) as (bs & s & -> & Lb); [lia|].
    exists bs, s. split; [reflexivity|]. split; [assumption|].
    apply decodeFixed_ok; auto.
    rewrite bytes_ok_app in Hb. now apply andb_true_iff in Hb.
  - right. unfold decodeFixed. rewrite s64_id by lia. rewrite zlen_app.
    replace (_ <? _) with true by lia. eauto.
Qed.

Lemma decodeNumber_any k p rest : is_num k = true -> bytes_ok rest = true -> small (p ++ rest) ->
  (exists bs s z, rest = bs ++ s /\ num_wire k bs z /\
     decodeNumber k 0 (p ++ rest) (zlen p) = Ok (z, zlen p + zlen bs)) \/
  (exists e, decodeNumber k 0 (p ++ rest) (zlen p) = Err e tt).
Proof.
  intros N Hb Hs.
  assert (W : wire_of k = 0 \/ wire_of k = 1 \/ wire_of k = 5) by (destruct k; cbn; auto; discriminate).
  assert (forall bs s z, rest = bs ++ s -> num_wire k bs z ->
    exists bs s z, rest = bs ++ s /\ num_wire k bs z /\
     decodeNumber k 0 (p ++ rest) (zlen p) = Ok (z, zlen p + zlen bs)) as K.
  { intros bs s z -> Hw. exists bs, s, z. split; [reflexivity|]. split; [assumption|].
    apply decodeNumber_ok; auto. rewrite bytes_ok_app in Hb. now apply andb_true_iff in Hb. }
  destruct W as [W|[W|W]].
  - destruct (read_cases (varint_conv k) p rest (conv_varint k) Hb) as [(bs & s & E & H1 & H2 & _)|(e & E)].
    + left. eapply K; eauto. unfold num_wire. rewrite W. auto.
    + right. exists e. unfold decodeNumber, decodeVarint. rewrite E. now destruct k.
  - destruct (decodeFixed_any 8 p rest Hb Hs ltac:(lia)) as [(bs & s & E & H1 & _)|(e & E)].
    + left. eapply K; eauto. unfold num_wire. rewrite W. auto.
    + right. exists e. unfold decodeNumber. rewrite E. destruct k; try discriminate; reflexivity.
  - destruct (decodeFixed_any 4 p rest Hb Hs ltac:(lia)) as [(bs & s & E & H1 & _)|(e & E)].
    + left. eapply K; eauto. unfold num_wire. rewrite W. auto.
    + right. exists e. unfold decodeNumber. rewrite E. destruct k; try discriminate; reflexivity.
Qed.

(** Values in wire form are in the range of their type. *)
Lemma num_wire_range k bs z : num_wire k bs z -> bytes_ok bs = true -> in_range k z = true.
Proof.
  intros H Hb. unfold num_wire in H.
  pose proof (le_val_nonneg bs Hb) as L.
  destruct k; cbn [wire_of] in H; try contradiction; cbn [in_range];
    try (destruct H as [H1 ->]; rewrite H1 in L; cbn [fixed_num];
         first [change (256 ^ 8) with 18446744073709551616 in L|change (256 ^ 4) with 4294967296 in L];
         try pose proof (s32_range (le_val bs)); try pose proof (s64_range (le_val bs)); lia);
    destruct H as (_ & _ & ->); cbn [varint_num].
  - pose proof (s64_range (vval bs)). lia.
  - pose proof (Z.mod_pos_bound (vval bs) 18446744073709551616). lia.
  - pose proof (s32_range (vval bs)). lia.
  - destruct (vval bs mod 18446744073709551616 =? 0); reflexivity.
  - pose proof (Z.mod_pos_bound (vval bs) 4294967296). lia.
  - pose proof (s32_range (vval bs)). lia.
  - pose proof (unzz_range (vval bs mod 4294967296) 2147483648).
    pose proof (Z.mod_pos_bound (vval bs) 4294967296). lia.
  - pose proof (unzz_range (vval bs mod 18446744073709551616) 9223372036854775808).
    pose proof (Z.mod_pos_bound (vval bs) 18446744073709551616). lia.
Qed.

(** The canonical form. *)
Lemma zz_range x b : - b <= x < b -> 0 <= zz x < 2 * b.
Proof. intros H. unfold zz. destruct (x <? 0) eqn:E; lia. Qed.

Lemma num_wire_enc sc rec k z : is_num k = true -> in_range k z = true ->
  num_wire k (enc_value sc rec k (VInt z)) z.
Proof.
  intros N R. unfold num_wire.
  assert (forall v, 0 <= v < 18446744073709551616 -> z = varint_num k v ->
    is_varint (varint v) = true /\ zlen (varint v) <= 10 /\ z = varint_num k (vval (varint v))) as V.
  { intros v Hv E. split; [apply varint_is; lia|]. split; [apply varint_len64; lia|].
    now rewrite varint_val by lia. }
  pose proof (Z.mod_pos_bound z 18446744073709551616 ltac:(lia)) as B.
  pose proof (Z.mod_pos_bound z 4294967296 ltac:(lia)) as B4.
  assert (forall m, 0 <= m -> zlen (le_bytes (Z.to_nat m) 0) = m) as _ by (intros; unfold zlen; rewrite le_bytes_len; lia).
  assert (zlen (le_bytes 8 (z mod 18446744073709551616)) = 8) as L8 by (unfold zlen; now rewrite le_bytes_len).
  assert (zlen (le_bytes 4 (z mod 4294967296)) = 4) as L4 by (unfold zlen; now rewrite le_bytes_len).
  assert (le_val (le_bytes 8 (z mod 18446744073709551616)) = z mod 18446744073709551616) as V8.
  { apply le_val_bytes. change (256 ^ Z.of_nat 8) with 18446744073709551616. lia. }
  assert (le_val (le_bytes 4 (z mod 4294967296)) = z mod 4294967296) as V4.
  { apply le_val_bytes. change (256 ^ Z.of_nat 4) with 4294967296. lia. }
  assert (s64 (z mod 18446744073709551616) = s64 z) as S8 by apply s64_u64.
  assert (s32 (z mod 18446744073709551616) = s32 z) as S84 by apply s32_u64.
  assert (s32 (z mod 4294967296) = s32 z) as S4 by apply s32_u32.
  destruct k; try discriminate; cbn [wire_of enc_value vint in_range] in *;
    try (split; [assumption|]; rewrite ?V8, ?V4; cbn [fixed_num];
         rewrite ?S8, ?S4, ?s64_id, ?s32_id, ?Z.mod_small by lia; reflexivity).
  - apply V; [lia|]. cbn [varint_num]. rewrite S8, s64_id; lia.
  - apply V; [lia|]. cbn [varint_num]. rewrite Z.mod_mod, Z.mod_small; lia.
  - apply V; [lia|]. cbn [varint_num]. rewrite S84, s32_id; lia.
  - assert (z = 0 \/ z = 1) as [-> | ->] by lia; cbn; repeat split; discriminate.
  - apply V; [lia|]. cbn [varint_num]. rewrite (Z.mod_small z), Z.mod_small; lia.
  - apply V; [lia|]. cbn [varint_num]. rewrite S84, s32_id; lia.
  - pose proof (zz_range z 2147483648). apply V; [lia|]. cbn [varint_num].
    rewrite Z.mod_small by lia. now rewrite unzz_zz.
  - pose proof (zz_range z 9223372036854775808). apply V; [lia|]. cbn [varint_num].
    rewrite Z.mod_small by lia. now rewrite unzz_zz.
Qed.
