(** Varints: the model's size, writer and readers against the specification. *)
From Coq Require Import ZArith List Bool Lia.
From Verif Require Import Base BaseFacts Schema Value Helpers WireSpec.
Import ListNotations.
Open Scope Z_scope.

(** * The specification's varint *)
Lemma log2_lt128 v : 0 <= v < 128 -> Z.log2 v < 7.
Proof.
  intros H. destruct (Z.eq_dec v 0) as [->|N]; [cbn; lia|].
  apply Z.log2_lt_pow2; [lia|]. change (2^7) with 128. lia.
Qed.
Lemma log2_div128 v : 128 <= v -> Z.log2 (v / 128) = Z.log2 v - 7.
Proof.
  intros H. change 128 with (2^7). rewrite <- Z.shiftr_div_pow2 by lia.
  rewrite Z.log2_shiftr by lia.
  assert (7 <= Z.log2 v). { change 7 with (Z.log2 128). now apply Z.log2_le_mono. }
  lia.
Qed.
Lemma log2_ge128 v : 128 <= v -> 7 <= Z.log2 v.
Proof. intros. change 7 with (Z.log2 128). now apply Z.log2_le_mono. Qed.

Lemma varint_f_enough n : forall n' v, 0 <= v ->
  (Z.to_nat (Z.log2 v) <= n)%nat -> (Z.to_nat (Z.log2 v) <= n')%nat ->
  varint_f n v = varint_f n' v.
Proof.
  induction n as [|n IH]; intros n' v Hv H1 H2.
  - destruct n'; [reflexivity|]. cbn [varint_f].
    destruct (v <? 128) eqn:E; [reflexivity|].
    pose proof (log2_ge128 v ltac:(lia)). lia.
  - cbn [varint_f]. destruct (v <? 128) eqn:E.
    + destruct n'; cbn [varint_f]; [reflexivity|]. now rewrite E.
    + pose proof (log2_ge128 v ltac:(lia)). pose proof (log2_div128 v ltac:(lia)).
      destruct n'; [lia|]. cbn [varint_f]. rewrite E. f_equal. apply IH; try lia.
      apply Z.div_pos; lia.
Qed.

Lemma varint_small v : 0 <= v < 128 -> varint v = [v].
Proof.
  intros H. unfold varint. rewrite (varint_f_enough _ 10 v) by (pose proof (log2_lt128 v); lia).
  cbn [varint_f]. now replace (v <? 128) with true by lia.
Qed.
Lemma varint_big v : 128 <= v -> varint v = (v mod 128 + 128) :: varint (v / 128).
Proof.
  intros H. pose proof (log2_ge128 v H). pose proof (log2_div128 v H).
  unfold varint at 1. destruct (Z.to_nat (Z.log2 v)) as [|n] eqn:E; [lia|].
  cbn [varint_f]. replace (v <? 128) with false by lia. f_equal.
  apply varint_f_enough; try lia. apply Z.div_pos; lia.
Qed.

(** Induction along the bytes of a varint. *)
Lemma varint_ind (P : Z -> Prop) :
  (forall v, 0 <= v < 128 -> P v) ->
  (forall v, 128 <= v -> P (v / 128) -> P v) ->
  forall v, 0 <= v -> P v.
Proof.
  intros H1 H2 v Hv. pattern v. apply Zlt_0_ind; [|assumption].
  intros x IH Hx. destruct (Z_lt_dec x 128) as [L|L].
  - apply H1. lia.
  - apply H2; [lia|]. apply IH. split; [apply Z.div_pos; lia|].
    apply Z.div_lt_upper_bound; lia.
Qed.

Lemma varint_len v : 0 <= v -> zlen (varint v) = Z.log2 v / 7 + 1.
Proof.
  revert v. apply varint_ind; intros v H.
  - rewrite varint_small by lia. pose proof (log2_lt128 v H). pose proof (Z.log2_nonneg v).
    rewrite Z.div_small by lia. reflexivity.
  - intros IH. rewrite varint_big by lia. rewrite zlen_cons, IH, log2_div128 by lia.
    replace (Z.log2 v) with (Z.log2 v - 7 + 1 * 7) at 2 by lia.
    rewrite Z.div_add by lia. lia.
Qed.

Lemma varint_pos v : 0 <= v -> 1 <= zlen (varint v).
Proof.
  intros H. rewrite varint_len by lia. pose proof (Z.log2_nonneg v).
  pose proof (Z.div_pos (Z.log2 v) 7). lia.
Qed.

Lemma varint_len64 v : 0 <= v < 18446744073709551616 -> zlen (varint v) <= 10.
Proof.
  intros H. rewrite varint_len by lia.
  assert (Z.log2 v < 64).
  { destruct (Z.eq_dec v 0) as [->|]; [cbn; lia|]. apply Z.log2_lt_pow2; [lia|].
    change (2^64) with 18446744073709551616. lia. }
  pose proof (Z.div_lt_upper_bound (Z.log2 v) 7 10 ltac:(lia) ltac:(lia)). lia.
Qed.

Lemma varint_is v : 0 <= v -> is_varint (varint v) = true.
Proof.
  revert v. apply varint_ind; intros v H.
  - rewrite varint_small by lia. cbn. lia.
  - intros IH. rewrite varint_big by lia. cbn [is_varint].
    destruct (varint (v/128)) eqn:E; [discriminate IH|].
    pose proof (Z.mod_pos_bound v 128). rewrite IH. lia.
Qed.

Lemma varint_val v : 0 <= v -> vval (varint v) = v.
Proof.
  revert v. apply varint_ind; intros v H.
  - rewrite varint_small by lia. cbn. rewrite Z.mod_small; lia.
  - intros IH. rewrite varint_big by lia. cbn [vval]. rewrite IH.
    pose proof (Z.mod_pos_bound v 128).
    replace ((v mod 128 + 128) mod 128) with (v mod 128).
    + pose proof (Z.div_mod v 128). lia.
    + apply Z.mod_unique with 1; lia.
Qed.

Lemma is_varint_bytes bs : is_varint bs = true -> bytes_ok bs = true.
Proof.
  induction bs as [|b r IH]; intros H; [reflexivity|].
  cbn [is_varint] in H. rewrite bytes_ok_cons. destruct r as [|c r].
  - unfold is_byte. cbn. lia.
  - apply andb_true_iff in H as [H1 H2]. rewrite (IH H2). unfold is_byte. lia.
Qed.

Lemma varint_bytes v : 0 <= v -> bytes_ok (varint v) = true.
Proof. intros. now apply is_varint_bytes, varint_is. Qed.

Lemma vval_nonneg bs : 0 <= vval bs.
Proof.
  induction bs as [|b r IH]; cbn [vval]; [lia|]. pose proof (Z.mod_pos_bound b 128). lia.
Qed.

Lemma is_varint_ne bs : is_varint bs = true -> bs <> [].
Proof. intros H ->. discriminate. Qed.

(** Two varints that start the same bytes are the same. *)
Lemma is_varint_prefix a : forall b s t, is_varint a = true -> is_varint b = true ->
  a ++ s = b ++ t -> a = b /\ s = t.
Proof.
  induction a as [|x a IH]; intros b s t Ha Hb E; [discriminate|].
  destruct b as [|y b]; [discriminate|].
  cbn [app] in E. injection E as -> E. cbn [is_varint] in Ha, Hb.
  destruct a as [|x' a], b as [|y' b].
  - cbn in E. auto.
  - lia.
  - lia.
  - apply andb_true_iff in Ha as [_ Ha]. apply andb_true_iff in Hb as [_ Hb].
    destruct (IH _ _ _ Ha Hb E) as [-> ->]. auto.
Qed.

(** * The size function *)
Lemma log2_lor1 x : 0 <= x -> Z.log2 (Z.lor x 1) = Z.log2 x.
Proof.
  intros H. rewrite Z.log2_lor by lia. change (Z.log2 1) with 0.
  pose proof (Z.log2_nonneg x). lia.
Qed.

Lemma SizeOfVarint_len v : 0 <= v -> SizeOfVarint v = zlen (varint v).
Proof.
  intros H. unfold SizeOfVarint, Len64.
  assert (0 < Z.lor v 1).
  { assert (0 <= Z.lor v 1) by (apply Z.lor_nonneg; lia).
    assert (Z.lor v 1 <> 0) by (rewrite Z.lor_eq_0_iff; lia). lia. }
  replace (Z.lor v 1 <=? 0) with false by lia.
  rewrite log2_lor1, varint_len by lia.
  replace (Z.log2 v + 1 + 6) with (Z.log2 v + 1 * 7) by lia.
  now rewrite Z.div_add by lia.
Qed.

(** * The writer *)
Lemma varint_fuel_enough v : (Z.to_nat (Z.log2 v) < varint_fuel v)%nat.
Proof. unfold varint_fuel. lia. Qed.

Lemma land127 v : Z.land v 127 = v mod 128.
Proof. change 127 with (Z.ones 7). rewrite Z.land_ones by lia. reflexivity. Qed.
Lemma shiftr7 v : Z.shiftr v 7 = v / 128.
Proof. rewrite Z.shiftr_div_pow2 by lia. reflexivity. Qed.
Lemma lor128 b : 0 <= b < 128 -> Z.lor b 128 = b + 128.
Proof.
  intros H. rewrite <- Z.lxor_lor, <- Z.add_nocarry_lxor; try lia.
  - apply Z.bits_inj'. intros n Hn. rewrite Z.land_spec, Z.bits_0.
    change 128 with (2^7). rewrite Z.pow2_bits_eqb by lia.
    destruct (7 =? n) eqn:E; [|now rewrite andb_false_r].
    apply Z.eqb_eq in E as <-.
    rewrite (Z.bits_above_log2 b 7); [reflexivity|lia|]. now apply log2_lt128.
  - apply Z.bits_inj'. intros n Hn. rewrite Z.land_spec, Z.bits_0.
    change 128 with (2^7). rewrite Z.pow2_bits_eqb by lia.
    destruct (7 =? n) eqn:E; [|now rewrite andb_false_r].
    apply Z.eqb_eq in E as <-.
    rewrite (Z.bits_above_log2 b 7); [reflexivity|lia|]. now apply log2_lt128.
Qed.

Lemma varint_loop_ok fuel : forall v p q s, 0 <= v -> (Z.to_nat (Z.log2 v) < fuel)%nat ->
  zlen q = zlen (varint v) ->
  varint_loop fuel (p ++ q ++ s) (zlen p) v = Ok (p ++ varint v ++ s, zlen p + zlen q).
Proof.
  induction fuel as [|fuel IH]; intros v p q s Hv Hf Hq; [lia|].
  cbn [varint_loop]. destruct (128 <=? v) eqn:E.
  - rewrite varint_big, zlen_cons in Hq by lia.
    destruct q as [|x q]; [rewrite zlen_nil in Hq; pose proof (zlen_nonneg (varint (v / 128))); lia|].
    rewrite zlen_cons in Hq. cbn [app].
    rewrite zset_app. cbn [orpanic rbind].
    rewrite land127, lor128, shiftr7 by (apply Z.mod_pos_bound; lia).
    replace (p ++ (v mod 128 + 128) :: q ++ s) with ((p ++ [v mod 128 + 128]) ++ q ++ s)
      by (now rewrite <- app_assoc).
    replace (zlen p + 1) with (zlen (p ++ [v mod 128 + 128])) by (now rewrite zlen_app).
    rewrite IH.
    + rewrite (varint_big v) by lia. rewrite <- app_assoc. cbn [app].
      rewrite zlen_app, !zlen_cons, zlen_nil. do 2 f_equal. lia.
    + apply Z.div_pos; lia.
    + rewrite log2_div128 by lia. pose proof (log2_ge128 v ltac:(lia)). lia.
    + lia.
  - rewrite varint_small in Hq |- * by lia.
    destruct q as [|x [|y q]]; try (unfold zlen in Hq; cbn in Hq; lia).
    cbn [app]. rewrite zset_app. reflexivity.
Qed.

Lemma varint_loop_neg fuel buf off v : off < 0 ->
  varint_loop (S fuel) buf off v = Panic.
Proof.
  intros H. cbn [varint_loop]. destruct (128 <=? v); now rewrite zset_neg.
Qed.

(** * The reader *)
Lemma testbit_mod_pow2 a n i : 0 <= n -> 0 <= i ->
  Z.testbit (a mod 2^n) i = (i <? n) && Z.testbit a i.
Proof.
  intros Hn Hi. destruct (i <? n) eqn:E.
  - now rewrite Z.mod_pow2_bits_low by lia.
  - now rewrite Z.mod_pow2_bits_high by lia.
Qed.

Lemma u64_lor a b : u64 (Z.lor a b) = Z.lor (u64 a) (u64 b).
Proof.
  unfold u64. change 18446744073709551616 with (2^64).
  apply Z.bits_inj'. intros i Hi. rewrite Z.lor_spec, !testbit_mod_pow2, Z.lor_spec by lia.
  now destruct (i <? 64).
Qed.
Lemma u32_lor a b : u32 (Z.lor a b) = Z.lor (u32 a) (u32 b).
Proof.
  unfold u32. change 4294967296 with (2^32).
  apply Z.bits_inj'. intros i Hi. rewrite Z.lor_spec, !testbit_mod_pow2, Z.lor_spec by lia.
  now destruct (i <? 32).
Qed.

(** Bits of a signed conversion: sign extension of bit [n-1]. *)
Lemma signed_bits n z i : 0 < n -> 0 <= i ->
  let r := z mod 2^n in
  Z.testbit (if r <? 2^(n-1) then r else r - 2^n) i = Z.testbit z (if i <? n then i else n - 1).
Proof.
  intros Hn Hi r.
  assert (0 <= r < 2^n) as Hr by (apply Z.mod_pos_bound, Z.pow_pos_nonneg; lia).
  assert (2^n = 2 * 2^(n-1)) as Hp.
  { rewrite <- Z.pow_succ_r by lia. f_equal. lia. }
  assert (Z.testbit z (n-1) = negb (r <? 2^(n-1))) as Hs.
  { replace (Z.testbit z (n-1)) with (Z.testbit r (n-1)).
    - rewrite Z.testbit_odd, Z.shiftr_div_pow2 by lia.
      destruct (r <? 2^(n-1)) eqn:E.
      + rewrite Z.div_small by lia. reflexivity.
      + replace (r / 2^(n-1)) with 1; [reflexivity|].
        apply Z.div_unique with (r - 2^(n-1)); lia.
    - unfold r. rewrite testbit_mod_pow2 by lia. now replace (n - 1 <? n) with true by lia. }
  destruct (r <? 2^(n-1)) eqn:E.
  - destruct (i <? n) eqn:F.
    + unfold r. rewrite testbit_mod_pow2 by lia. now rewrite F.
    + rewrite Hs. unfold r. rewrite testbit_mod_pow2 by lia. now rewrite F.
  - destruct (i <? n) eqn:F.
    + replace (Z.testbit (r - 2^n) i) with (Z.testbit ((r - 2^n) mod 2^n) i).
      * replace ((r - 2^n) mod 2^n) with r.
        { unfold r. rewrite testbit_mod_pow2 by lia. now rewrite F. }
        apply Z.mod_unique with (-1); lia.
      * rewrite testbit_mod_pow2 by lia. now rewrite F.
    + rewrite Hs. cbn [negb].
      replace (r - 2^n) with (- (2^n - r)) by lia.
      rewrite Z.bits_opp by lia. rewrite (Z.bits_above_log2); [reflexivity|lia|].
      destruct (Z.eq_dec (Z.pred (2^n - r)) 0) as [->|N]; [cbn; lia|].
      apply Z.log2_lt_pow2; [lia|].
      assert (2^(n-1) <= 2^i) by (apply Z.pow_le_mono_r; lia). lia.
Qed.

Lemma s64_bits z i : 0 <= i -> Z.testbit (s64 z) i = Z.testbit z (if i <? 64 then i else 63).
Proof. intros Hi. apply (signed_bits 64 z i ltac:(lia) Hi). Qed.
Lemma s32_bits z i : 0 <= i -> Z.testbit (s32 z) i = Z.testbit z (if i <? 32 then i else 31).
Proof. intros Hi. apply (signed_bits 32 z i ltac:(lia) Hi). Qed.
Lemma s64_lor a b : s64 (Z.lor a b) = Z.lor (s64 a) (s64 b).
Proof.
  apply Z.bits_inj'. intros i Hi. rewrite Z.lor_spec, !s64_bits, Z.lor_spec by lia. reflexivity.
Qed.
Lemma s32_lor a b : s32 (Z.lor a b) = Z.lor (s32 a) (s32 b).
Proof.
  apply Z.bits_inj'. intros i Hi. rewrite Z.lor_spec, !s32_bits, Z.lor_spec by lia. reflexivity.
Qed.

(** The conversions used by the readers. *)
Definition conv_ok (w : Z -> Z) : Prop :=
  w 0 = 0 /\ forall a b, w (Z.lor a b) = Z.lor (w a) (w b).
Lemma conv_u64 : conv_ok u64. Proof. split; [reflexivity|exact u64_lor]. Qed.
Lemma conv_u32 : conv_ok u32. Proof. split; [reflexivity|exact u32_lor]. Qed.
Lemma conv_s64 : conv_ok s64. Proof. split; [reflexivity|exact s64_lor]. Qed.
Lemma conv_s32 : conv_ok s32. Proof. split; [reflexivity|exact s32_lor]. Qed.

Lemma vval_lor b x : Z.lor (b mod 128) (Z.shiftl x 7) = b mod 128 + 128 * x.
Proof.
  rewrite <- Z.lxor_lor, <- Z.add_nocarry_lxor.
  - rewrite Z.shiftl_mul_pow2 by lia. change (2^7) with 128. lia.
  - change 128 with (2^7). apply Z.bits_inj'. intros n Hn.
    rewrite Z.land_spec, testbit_mod_pow2, Z.bits_0 by lia.
    destruct (n <? 7) eqn:E; cbn [andb]; [|reflexivity].
    rewrite Z.shiftl_spec_low by lia. apply andb_false_r.
  - change 128 with (2^7). apply Z.bits_inj'. intros n Hn.
    rewrite Z.land_spec, testbit_mod_pow2, Z.bits_0 by lia.
    destruct (n <? 7) eqn:E; cbn [andb]; [|reflexivity].
    rewrite Z.shiftl_spec_low by lia. apply andb_false_r.
Qed.

Lemma read_varint_ok w : conv_ok w -> forall bs fuel p s shift acc,
  is_varint bs = true -> 0 <= shift -> shift + 7 * zlen bs <= 70 ->
  (length bs <= fuel)%nat ->
  read_varint fuel w (p ++ bs ++ s) (zlen p) shift acc
  = Ok (Z.lor acc (w (Z.shiftl (vval bs) shift)), zlen p + zlen bs).
Proof.
  intros [W0 W1]. induction bs as [|b r IH]; intros fuel p s shift acc Hb Hs Hl Hf; [discriminate|].
  destruct fuel as [|fuel]; [cbn in Hf; lia|]. cbn [read_varint].
  rewrite zlen_cons in Hl. pose proof (zlen_nonneg r).
  replace (64 <=? shift) with false by lia.
  cbn [app]. rewrite zlen_app, zlen_cons.
  pose proof (zlen_nonneg p). pose proof (zlen_nonneg (r ++ s)).
  replace (zlen p + (1 + zlen (r ++ s)) <=? zlen p) with false by lia.
  rewrite zget_app. cbn [orpanic rbind]. cbv zeta.
  cbn [is_varint] in Hb. rewrite land127. destruct r as [|c r].
  - replace (b <? 128) with true by lia. cbn [vval].
    replace (b mod 128 + 128 * 0) with (b mod 128) by lia. reflexivity.
  - apply andb_true_iff in Hb as [Hb1 Hb2]. replace (b <? 128) with false by lia.
    replace (p ++ b :: (c :: r) ++ s) with ((p ++ [b]) ++ (c :: r) ++ s)
      by (now rewrite <- app_assoc).
    replace (zlen p + 1) with (zlen (p ++ [b])) by (now rewrite zlen_app).
    rewrite IH; [|assumption|lia|lia|cbn in *; lia].
    rewrite !zlen_app, !zlen_cons, zlen_nil. f_equal. f_equal; [|lia].
    rewrite <- Z.lor_assoc, <- W1. f_equal. f_equal.
    change (vval (b :: c :: r)) with (b mod 128 + 128 * vval (c :: r)).
    rewrite <- vval_lor, Z.shiftl_lor, Z.shiftl_shiftl by lia.
    do 2 f_equal. lia.
Qed.

Lemma decodeVarint_ok w acc bs p s : conv_ok w -> is_varint bs = true -> zlen bs <= 10 ->
  decodeVarint w acc (p ++ bs ++ s) (zlen p) = Ok (Z.lor acc (w (vval bs)), zlen p + zlen bs).
Proof.
  intros Hw Hb Hl. unfold decodeVarint. rewrite (read_varint_ok w Hw); auto; try lia.
  unfold zlen in Hl. lia.
Qed.

(** Everything the reader does on arbitrary input. *)
Inductive varint_outcome (w : Z -> Z) (acc : Z) (p rest : list Z) : res unit (Z * Z) -> Prop :=
| vo_ok bs s : rest = bs ++ s -> is_varint bs = true -> zlen bs <= 10 ->
    varint_outcome w acc p rest (Ok (Z.lor acc (w (vval bs)), zlen p + zlen bs))
| vo_eof : zlen rest < 10 -> (forall bs s, rest = bs ++ s -> is_varint bs = false) ->
    varint_outcome w acc p rest (Err EUnexpectedEOF tt)
| vo_over : 10 <= zlen rest -> (forall bs s, rest = bs ++ s -> zlen bs <= 10 -> is_varint bs = false) ->
    varint_outcome w acc p rest (Err EIntOverflow tt).

Lemma read_varint_any w : conv_ok w -> forall rest n fuel p acc,
  bytes_ok rest = true -> (n <= 10)%nat -> (11 <= fuel + n)%nat ->
  let r := read_varint fuel w (p ++ rest) (zlen p) (7 * Z.of_nat n) acc in
  (exists bs s, rest = bs ++ s /\ is_varint bs = true /\ Z.of_nat n + zlen bs <= 10 /\
     r = Ok (Z.lor acc (w (Z.shiftl (vval bs) (7 * Z.of_nat n))), zlen p + zlen bs))
  \/ (Z.of_nat n + zlen rest < 10 /\ (forall bs s, rest = bs ++ s -> is_varint bs = false)
      /\ r = Err EUnexpectedEOF tt)
  \/ (10 <= Z.of_nat n + zlen rest /\
      (forall bs s, rest = bs ++ s -> Z.of_nat n + zlen bs <= 10 -> is_varint bs = false)
      /\ r = Err EIntOverflow tt).
Proof.
  intros Hw. induction rest as [|b rest IH]; intros n fuel p acc Hb Hn Hf r.
  - destruct fuel as [|fuel]; [lia|]. unfold r. cbn [read_varint].
    destruct (64 <=? 7 * Z.of_nat n) eqn:E.
    + right. right. split; [unfold zlen; cbn; lia|]. split; [|reflexivity].
      intros bs s Es _. destruct bs; [reflexivity|discriminate].
    + right. left. split; [unfold zlen; cbn; lia|]. split.
      * intros bs s Es. destruct bs; [reflexivity|discriminate].
      * rewrite app_nil_r. now replace (zlen p <=? zlen p) with true by lia.
  - destruct fuel as [|fuel]; [lia|]. unfold r. cbn [read_varint].
    rewrite bytes_ok_cons in Hb. apply andb_true_iff in Hb as [Hb Hbs].
    unfold is_byte in Hb. pose proof (zlen_nonneg rest) as Lr. pose proof (zlen_cons b rest) as Lc. pose proof (zlen_nonneg p).
    destruct (64 <=? 7 * Z.of_nat n) eqn:E.
    + right. right. rewrite zlen_cons. split; [lia|]. split; [|reflexivity].
      intros bs s Es Hl. destruct bs as [|x bs]; [reflexivity|].
      rewrite zlen_cons in Hl. pose proof (zlen_nonneg bs). lia.
    + rewrite zlen_app, zlen_cons.
      replace (zlen p + (1 + zlen rest) <=? zlen p) with false by lia.
      rewrite zget_app. cbn [orpanic rbind]. cbv zeta. rewrite land127.
      destruct (b <? 128) eqn:B.
      * left. exists [b], rest. cbn [app is_varint vval]. change (zlen [b]) with 1.
        repeat split; try lia.
        replace (b mod 128 + 128 * 0) with (b mod 128) by lia. reflexivity.
      * replace (p ++ b :: rest) with ((p ++ [b]) ++ rest) by (now rewrite <- app_assoc).
        replace (zlen p + 1) with (zlen (p ++ [b])) by (now rewrite zlen_app).
        replace (7 * Z.of_nat n + 7) with (7 * Z.of_nat (S n)) by lia.
        destruct (IH (S n) fuel (p ++ [b])
                     (Z.lor acc (w (Z.shiftl (b mod 128) (7 * Z.of_nat n)))) Hbs ltac:(lia) ltac:(lia))
          as [(bs & s & -> & Hv & Hl & Hr)|[(Hl & Hv & Hr)|(Hl & Hv & Hr)]]; rewrite Hr.
        -- left. exists (b :: bs), s. destruct Hw as [W0 W1].
           assert (zlen (b :: bs) = 1 + zlen bs) as Lb by apply zlen_cons.
           split; [reflexivity|]. rewrite Lb. split; [|split; [lia|]].
           ++ cbn [is_varint]. destruct bs; [discriminate|]. rewrite Hv. lia.
           ++ rewrite !zlen_app. change (zlen [b]) with 1. f_equal. f_equal; [|lia].
              rewrite <- Z.lor_assoc, <- W1. do 2 f_equal. cbn [vval].
              rewrite <- vval_lor, Z.shiftl_lor, Z.shiftl_shiftl by lia. do 2 f_equal. lia.
        -- right. left. split; [lia|]. split; [|reflexivity].
           intros bs s Es. destruct bs as [|x bs]; [reflexivity|]. injection Es as -> Es.
           cbn [is_varint]. destruct bs as [|y bs]; [lia|].
           rewrite (Hv _ _ Es). apply andb_false_r.
        -- right. right. split; [lia|]. split; [|reflexivity].
           intros bs s Es Hl'. destruct bs as [|x bs]; [reflexivity|]. injection Es as -> Es.
           rewrite zlen_cons in Hl'.
           cbn [is_varint]. destruct bs as [|y bs]; [lia|].
           rewrite (Hv _ _ Es) by lia. apply andb_false_r.
Qed.

Lemma decodeVarint_any w acc p rest : conv_ok w -> bytes_ok rest = true ->
  varint_outcome w acc p rest (decodeVarint w acc (p ++ rest) (zlen p)).
Proof.
  intros Hw Hb. unfold decodeVarint.
  destruct (read_varint_any w Hw rest 0 11 p acc Hb ltac:(lia) ltac:(lia))
    as [(bs & s & E & Hv & Hl & Hr)|[(Hl & Hv & Hr)|(Hl & Hv & Hr)]];
    cbn [Z.of_nat Z.mul] in Hr; rewrite Hr.
  - rewrite Z.shiftl_0_r. econstructor; eauto.
  - constructor; [lia|assumption].
  - constructor; [lia|]. intros. eapply Hv; eauto.
Qed.

Lemma skip_varint_read : forall fuel data i shift,
  skip_varint fuel data i shift =
  match read_varint fuel u64 data i shift 0 with
  | Ok (_, i') => Ok i' | Err e _ => Err e tt | Panic => Panic | NoFuel => NoFuel end.
Proof.
  assert (forall fuel data i shift acc acc',
    match read_varint fuel u64 data i shift acc with
    | Ok (_, i') => Ok i' | Err e _ => Err e tt | Panic => Panic | NoFuel => NoFuel end
    = match read_varint fuel u64 data i shift acc' with
    | Ok (_, i') => @Ok unit Z i' | Err e _ => Err e tt | Panic => Panic | NoFuel => NoFuel end) as A.
  { induction fuel as [|fuel IH]; intros; [reflexivity|]. cbn [read_varint].
    destruct (64 <=? shift); [reflexivity|]. destruct (zlen data <=? i); [reflexivity|].
    destruct (zget data i); [|reflexivity]. cbn [orpanic rbind]. cbv zeta.
    destruct (z <? 128); [reflexivity|]. apply IH. }
  induction fuel as [|fuel IH]; intros; [reflexivity|]. cbn [skip_varint read_varint].
  destruct (64 <=? shift); [reflexivity|]. destruct (zlen data <=? i); [reflexivity|].
  destruct (zget data i); [|reflexivity]. cbn [orpanic rbind]. cbv zeta.
  destruct (z <? 128); [reflexivity|]. rewrite IH. apply A.
Qed.

(** * Little-endian numbers *)
Lemma le_put_spec n : forall v, le_put n v = le_bytes n v.
Proof.
  induction n as [|n IH]; intros v; [reflexivity|]. cbn [le_put le_bytes]. rewrite IH. f_equal.
  - change 255 with (Z.ones 8). rewrite Z.land_ones by lia. reflexivity.
  - rewrite Z.shiftr_div_pow2 by lia. reflexivity.
Qed.
Lemma le_bytes_len n : forall v, length (le_bytes n v) = n.
Proof. induction n as [|n IH]; intros; [reflexivity|]. cbn. now rewrite IH. Qed.
Lemma le_bytes_ok n : forall v, bytes_ok (le_bytes n v) = true.
Proof.
  induction n as [|n IH]; intros; [reflexivity|]. cbn [le_bytes]. rewrite bytes_ok_cons, IH.
  unfold is_byte. pose proof (Z.mod_pos_bound v 256). lia.
Qed.
Lemma le_val_bytes n : forall v, 0 <= v < 256 ^ Z.of_nat n -> le_val (le_bytes n v) = v.
Proof.
  induction n as [|n IH]; intros v Hv.
  - cbn in *. lia.
  - cbn [le_bytes le_val]. rewrite IH.
    + pose proof (Z.div_mod v 256). lia.
    + rewrite Nat2Z.inj_succ, Z.pow_succ_r in Hv by lia. split; [apply Z.div_pos; lia|].
      apply Z.div_lt_upper_bound; lia.
Qed.
Lemma le_val_nonneg l : bytes_ok l = true -> 0 <= le_val l < 256 ^ zlen l.
Proof.
  induction l as [|b l IH]; intros H; [cbn; lia|].
  rewrite bytes_ok_cons in H. apply andb_true_iff in H as [H1 H2]. specialize (IH H2).
  unfold is_byte in H1. cbn [le_val]. rewrite zlen_cons.
  replace (256 ^ (1 + zlen l)) with (256 * 256 ^ zlen l).
  - lia.
  - rewrite Z.pow_add_r by (pose proof (zlen_nonneg l); lia). reflexivity.
Qed.
Lemma le_get_val l : bytes_ok l = true -> le_get l = le_val l.
Proof.
  induction l as [|b l IH]; intros H; [reflexivity|].
  rewrite bytes_ok_cons in H. apply andb_true_iff in H as [H1 H2]. specialize (IH H2).
  unfold is_byte in H1. cbn [le_get le_val]. rewrite IH.
  assert (Z.land b (Z.shiftl (le_val l) 8) = 0) as L.
  { apply Z.bits_inj'. intros n Hn. rewrite Z.land_spec, Z.bits_0.
    destruct (n <? 8) eqn:E; [rewrite Z.shiftl_spec_low by lia; apply andb_false_r|].
    destruct (Z.eq_dec b 0) as [->|N]; [now rewrite Z.bits_0|].
    rewrite (Z.bits_above_log2 b n); [reflexivity|lia|].
    assert (Z.log2 b < 8) by (apply Z.log2_lt_pow2; [lia|change (2^8) with 256; lia]). lia. }
  rewrite <- Z.lxor_lor, <- Z.add_nocarry_lxor by assumption.
  rewrite Z.shiftl_mul_pow2 by lia. change (2^8) with 256. lia.
Qed.
