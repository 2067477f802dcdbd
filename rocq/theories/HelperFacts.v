(** Exact characterisations of the helper functions. *)
From Coq Require Import ZArith List Bool Lia.
From Verif Require Import Base BaseFacts Schema Value Helpers Marshal WireSpec RecordSpec VarintFacts SimFacts SkipFacts NumFacts Unmarshal Typing.
Import ListNotations.
Open Scope Z_scope.

Lemma varint_loop_short fuel : forall v buf off, 0 <= v -> (Z.to_nat (Z.log2 v) < fuel)%nat ->
  zlen buf < off + zlen (varint v) -> varint_loop fuel buf off v = Panic.
Proof.
  induction fuel as [|fuel IH]; intros v buf off Hv Hf Hl; [lia|]. cbn [varint_loop].
  destruct (128 <=? v) eqn:E.
  - rewrite (varint_big v) in Hl by lia. rewrite zlen_cons in Hl.
    destruct (zset buf off _) as [buf'|] eqn:Z; [|reflexivity]. cbn [orpanic rbind].
    assert (zlen buf' = zlen buf) as L.
    { destruct ((0 <=? off) && (off <? zlen buf)) eqn:B.
      - destruct (split_at1 buf off) as (p & x & s & -> & <-); [lia|].
        rewrite zset_app in Z. injection Z as <-. now rewrite !zlen_app, !zlen_cons.
      - unfold zset in Z. rewrite B in Z. discriminate. }
    rewrite shiftr7. apply IH.
    + apply Z.div_pos; lia.
    + rewrite log2_div128 by lia. pose proof (log2_ge128 v). lia.
    + lia.
  - rewrite (varint_small v) in Hl by lia. change (zlen [v]) with 1 in Hl.
    unfold zset. replace ((0 <=? off) && (off <? zlen buf)) with false by lia. reflexivity.
Qed.

Lemma EncodeVarint_exact buf off v : 0 <= v < 18446744073709551616 ->
  EncodeVarint buf off v =
  let n := zlen (varint v) in
  if (n <=? off) && (off <=? zlen buf)
  then Ok (firstn (Z.to_nat (off - n)) buf ++ varint v ++ skipn (Z.to_nat off) buf, off - n)
  else Panic.
Proof.
  intros Hv. cbv zeta. pose proof (varint_pos v ltac:(lia)).
  destruct ((zlen (varint v) <=? off) && (off <=? zlen buf)) eqn:E.
  - destruct (split_at buf (off - zlen (varint v))) as (p & r & -> & Lp); [lia|].
    rewrite zlen_app in E.
    destruct (split_at r (zlen (varint v))) as (q & s & -> & Lq); [lia|].
    destruct (sim_encodeVarint v ltac:(lia)) as [S _].
    specialize (S p q s Lq). cbn [outcome] in S. unfold encodeVarint in S. cbn [fst snd] in S.
    replace off with (zlen p + zlen q) by lia. rewrite S.
    replace (zlen p + zlen q - zlen (varint v)) with (zlen p) by lia.
    assert (firstn (Z.to_nat (zlen p)) (p ++ q ++ s) = p) as ->.
    { rewrite to_nat_zlen, firstn_app, Nat.sub_diag, firstn_all, firstn_O. apply app_nil_r. }
    assert (skipn (Z.to_nat (zlen p + zlen q)) (p ++ q ++ s) = s) as ->; [|reflexivity].
    rewrite app_assoc, <- zlen_app, to_nat_zlen, skipn_app, Nat.sub_diag, skipn_all. reflexivity.
  - unfold EncodeVarint. rewrite SizeOfVarint_len by lia.
    destruct (off - zlen (varint v) <? 0) eqn:N.
    + unfold varint_fuel. rewrite varint_loop_neg by lia. reflexivity.
    + rewrite varint_loop_short; [reflexivity|lia|apply varint_fuel_enough|lia].
Qed.

Lemma varint_len_least x n : 0 <= x -> 1 <= n -> (x < 128 ^ n <-> zlen (varint x) <= n).
Proof.
  intros Hx Hn. rewrite varint_len by assumption.
  change 128 with (2 ^ 7). rewrite <- Z.pow_mul_r by lia.
  destruct (Z.eq_dec x 0) as [->|].
  - change (Z.log2 0 / 7 + 1) with 1. split; [lia|]. intros. apply Z.pow_pos_nonneg; lia.
  - rewrite Z.log2_lt_pow2 by lia. split; intros H.
    + assert (Z.log2 x / 7 < n) by (apply Z.div_lt_upper_bound; lia). lia.
    + pose proof (Z.mul_succ_div_gt (Z.log2 x) 7). lia.
Qed.
