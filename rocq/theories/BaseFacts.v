(** Facts about the base definitions. *)
From Coq Require Import ZArith List Bool Lia.
From Verif Require Import Base.
Import ListNotations.
Open Scope Z_scope.

Lemma zlen_nil {A} : zlen (@nil A) = 0. Proof. reflexivity. Qed.
Lemma zlen_cons {A} (x : A) l : zlen (x :: l) = 1 + zlen l.
Proof. unfold zlen. cbn [length]. lia. Qed.
Lemma zlen_app {A} (a b : list A) : zlen (a ++ b) = zlen a + zlen b.
Proof. unfold zlen. rewrite app_length. lia. Qed.
Lemma zlen_nonneg {A} (l : list A) : 0 <= zlen l.
Proof. unfold zlen. lia. Qed.
Lemma zlen_rev {A} (l : list A) : zlen (rev l) = zlen l.
Proof. unfold zlen. now rewrite rev_length. Qed.
Lemma zlen_map {A B} (f : A -> B) l : zlen (map f l) = zlen l.
Proof. unfold zlen. now rewrite map_length. Qed.
Lemma zlen_repeat {A} (x : A) n : zlen (repeat x n) = Z.of_nat n.
Proof. unfold zlen. now rewrite repeat_length. Qed.
Lemma zlen_zero {A} (l : list A) : zlen l = 0 -> l = [].
Proof. unfold zlen. destruct l; [reflexivity|cbn; lia]. Qed.
Lemma zlen_eq {A B} (a : list A) (b : list B) : zlen a = zlen b <-> length a = length b.
Proof. unfold zlen. lia. Qed.

Lemma to_nat_zlen {A} (l : list A) : Z.to_nat (zlen l) = length l.
Proof. unfold zlen. lia. Qed.

Lemma firstn_app_len {A} (a b : list A) : firstn (length a) (a ++ b) = a.
Proof. rewrite firstn_app, Nat.sub_diag, firstn_all. cbn. now rewrite app_nil_r. Qed.
Lemma skipn_app_len {A} (a b : list A) : skipn (length a) (a ++ b) = b.
Proof. rewrite skipn_app, Nat.sub_diag, skipn_all. reflexivity. Qed.

Lemma zget_app p b s : zget (p ++ b :: s) (zlen p) = Some b.
Proof.
  unfold zget. rewrite zlen_app, zlen_cons.
  pose proof (zlen_nonneg p). pose proof (zlen_nonneg s).
  replace (0 <=? zlen p) with true by lia.
  replace (zlen p <? zlen p + (1 + zlen s)) with true by lia.
  cbn [andb]. rewrite to_nat_zlen, nth_error_app2 by lia.
  rewrite Nat.sub_diag. reflexivity.
Qed.

Lemma zget_some l i : 0 <= i < zlen l -> exists b, zget l i = Some b.
Proof.
  intros H. unfold zget. replace (0 <=? i) with true by lia.
  replace (i <? zlen l) with true by lia. cbn [andb].
  destruct (nth_error l (Z.to_nat i)) eqn:E; [eauto|].
  apply nth_error_None in E. unfold zlen in H. lia.
Qed.

(** Split a list at an index in range. *)
Lemma split_at {A} (l : list A) i : 0 <= i <= zlen l ->
  exists p s, l = p ++ s /\ zlen p = i.
Proof.
  intros H. exists (firstn (Z.to_nat i) l), (skipn (Z.to_nat i) l).
  split; [now rewrite firstn_skipn|].
  unfold zlen in *. rewrite firstn_length. lia.
Qed.

Lemma split_at1 {A} (l : list A) i : 0 <= i < zlen l ->
  exists p x s, l = p ++ x :: s /\ zlen p = i.
Proof.
  intros H. destruct (split_at l i) as (p & s & -> & Hp); [lia|].
  destruct s as [|x s].
  - rewrite app_nil_r in H. lia.
  - eauto.
Qed.

Lemma zset_app p x s b : zset (p ++ x :: s) (zlen p) b = Some (p ++ b :: s).
Proof.
  unfold zset. rewrite zlen_app, zlen_cons.
  pose proof (zlen_nonneg p). pose proof (zlen_nonneg s).
  replace (0 <=? zlen p) with true by lia.
  replace (zlen p <? zlen p + (1 + zlen s)) with true by lia.
  cbn [andb]. rewrite to_nat_zlen, firstn_app_len.
  replace (S (length p)) with (length (p ++ [x])) by (rewrite app_length; cbn; lia).
  replace (p ++ x :: s) with ((p ++ [x]) ++ s) by (now rewrite <- app_assoc).
  now rewrite skipn_app_len.
Qed.

Lemma zset_neg l i b : i < 0 -> zset l i b = None.
Proof. intros. unfold zset. replace (0 <=? i) with false by lia. reflexivity. Qed.

Lemma zcopy_app p q s bs : zlen q = zlen bs ->
  zcopy (p ++ q ++ s) (zlen p) bs = Some (p ++ bs ++ s).
Proof.
  intros H. apply zlen_eq in H. unfold zcopy.
  rewrite !zlen_app. pose proof (zlen_nonneg p). pose proof (zlen_nonneg q). pose proof (zlen_nonneg s).
  replace (0 <=? zlen p) with true by lia.
  replace (zlen p <=? zlen p + (zlen q + zlen s)) with true by lia.
  cbn [andb]. rewrite to_nat_zlen, !app_length, firstn_app_len.
  replace (Nat.min (length bs) (length p + (length q + length s) - length p))
    with (length bs) by lia.
  rewrite firstn_all. do 3 f_equal.
  rewrite app_assoc. rewrite <- H.
  replace (length p + length q)%nat with (length (p ++ q)) by (now rewrite app_length).
  now rewrite skipn_app_len.
Qed.

Lemma zcopy_neg l i bs : i < 0 -> zcopy l i bs = None.
Proof. intros. unfold zcopy. replace (0 <=? i) with false by lia. reflexivity. Qed.

Lemma zslice_app p q s : zslice (p ++ q ++ s) (zlen p) (zlen p + zlen q) = Some q.
Proof.
  unfold zslice. rewrite !zlen_app.
  pose proof (zlen_nonneg p). pose proof (zlen_nonneg q). pose proof (zlen_nonneg s).
  replace (0 <=? zlen p) with true by lia.
  replace (zlen p <=? zlen p + zlen q) with true by lia.
  replace (zlen p + zlen q <=? zlen p + (zlen q + zlen s)) with true by lia.
  cbn [andb]. replace (zlen p + zlen q - zlen p) with (zlen q) by lia.
  now rewrite !to_nat_zlen, skipn_app_len, firstn_app_len.
Qed.

Lemma zslice_pre p s : zslice (p ++ s) 0 (zlen p) = Some p.
Proof. exact (zslice_app [] p s). Qed.

Lemma zslice_suf p s : zslice (p ++ s) (zlen p) (zlen (p ++ s)) = Some s.
Proof.
  pose proof (zslice_app p s []) as H. rewrite app_nil_r in H.
  now rewrite zlen_app.
Qed.

Lemma zslice_inv l i j q : zslice l i j = Some q ->
  exists p s, l = p ++ q ++ s /\ zlen p = i /\ zlen q = j - i.
Proof.
  unfold zslice. destruct ((0 <=? i) && (i <=? j) && (j <=? zlen l)) eqn:E; [|discriminate].
  intros H. injection H as <-.
  assert (0 <= i /\ i <= j /\ j <= zlen l) as (H1 & H2 & H3) by lia.
  exists (firstn (Z.to_nat i) l), (skipn (Z.to_nat (j - i)) (skipn (Z.to_nat i) l)).
  rewrite !firstn_skipn. split; [reflexivity|].
  unfold zlen in *. rewrite !firstn_length, skipn_length. lia.
Qed.

Lemma zslice_some l i j : 0 <= i <= j -> j <= zlen l -> exists q, zslice l i j = Some q.
Proof.
  intros. unfold zslice. replace ((0 <=? i) && (i <=? j) && (j <=? zlen l)) with true by lia. eauto.
Qed.

Lemma bytes_ok_app a b : bytes_ok (a ++ b) = bytes_ok a && bytes_ok b.
Proof. apply forallb_app. Qed.
Lemma bytes_ok_cons a b : bytes_ok (a :: b) = is_byte a && bytes_ok b.
Proof. reflexivity. Qed.
Lemma is_byte_iff b : is_byte b = true <-> 0 <= b < 256.
Proof. unfold is_byte. lia. Qed.

(** Integer conversions. *)
Lemma u64_range z : 0 <= u64 z < 18446744073709551616.
Proof. unfold u64. apply Z.mod_pos_bound. lia. Qed.
Lemma u32_range z : 0 <= u32 z < 4294967296.
Proof. unfold u32. apply Z.mod_pos_bound. lia. Qed.
Lemma u64_id z : 0 <= z < 18446744073709551616 -> u64 z = z.
Proof. intros. unfold u64. now apply Z.mod_small. Qed.
Lemma u32_id z : 0 <= z < 4294967296 -> u32 z = z.
Proof. intros. unfold u32. now apply Z.mod_small. Qed.
Lemma s64_range z : -9223372036854775808 <= s64 z < 9223372036854775808.
Proof.
  unfold s64. pose proof (Z.mod_pos_bound z 18446744073709551616 ltac:(lia)).
  cbv zeta. destruct (_ <? _) eqn:E; lia.
Qed.
Lemma s32_range z : -2147483648 <= s32 z < 2147483648.
Proof.
  unfold s32. pose proof (Z.mod_pos_bound z 4294967296 ltac:(lia)).
  cbv zeta. destruct (_ <? _) eqn:E; lia.
Qed.
Lemma s64_id z : -9223372036854775808 <= z < 9223372036854775808 -> s64 z = z.
Proof.
  intros. unfold s64. destruct (Z_lt_dec z 0).
  - replace (z mod 18446744073709551616) with (z + 18446744073709551616).
    + cbv zeta. destruct (_ <? _) eqn:E; lia.
    + symmetry. rewrite <- (Z.mod_add z 1) by lia. apply Z.mod_small. lia.
  - rewrite Z.mod_small by lia. cbv zeta. destruct (_ <? _) eqn:E; lia.
Qed.
Lemma s32_id z : -2147483648 <= z < 2147483648 -> s32 z = z.
Proof.
  intros. unfold s32. destruct (Z_lt_dec z 0).
  - replace (z mod 4294967296) with (z + 4294967296).
    + cbv zeta. destruct (_ <? _) eqn:E; lia.
    + symmetry. rewrite <- (Z.mod_add z 1) by lia. apply Z.mod_small. lia.
  - rewrite Z.mod_small by lia. cbv zeta. destruct (_ <? _) eqn:E; lia.
Qed.
Lemma s64_mod z : (s64 z) mod 18446744073709551616 = z mod 18446744073709551616.
Proof.
  unfold s64. cbv zeta. pose proof (Z.mod_pos_bound z 18446744073709551616 ltac:(lia)).
  destruct (_ <? _) eqn:E.
  - apply Z.mod_small. lia.
  - match goal with |- ?a mod ?b = _ => rewrite <- (Z.mod_add a 1 b) by lia end.
    rewrite Z.mod_small; lia.
Qed.
Lemma s32_mod z : (s32 z) mod 4294967296 = z mod 4294967296.
Proof.
  unfold s32. cbv zeta. pose proof (Z.mod_pos_bound z 4294967296 ltac:(lia)).
  destruct (_ <? _) eqn:E.
  - apply Z.mod_small. lia.
  - match goal with |- ?a mod ?b = _ => rewrite <- (Z.mod_add a 1 b) by lia end.
    rewrite Z.mod_small; lia.
Qed.
Lemma s64_cong a b : a mod 18446744073709551616 = b mod 18446744073709551616 -> s64 a = s64 b.
Proof. intros H. unfold s64. now rewrite H. Qed.
Lemma s32_cong a b : a mod 4294967296 = b mod 4294967296 -> s32 a = s32 b.
Proof. intros H. unfold s32. now rewrite H. Qed.
Lemma s64_u64 z : s64 (u64 z) = s64 z.
Proof. apply s64_cong. unfold u64. apply Z.mod_mod. lia. Qed.
Lemma u64_s64 z : u64 (s64 z) = u64 z.
Proof. apply s64_mod. Qed.
Lemma u32_u64 z : u32 (u64 z) = u32 z.
Proof.
  unfold u32, u64.
  rewrite (Z.div_mod z 18446744073709551616) at 2 by lia.
  replace (18446744073709551616 * (z / 18446744073709551616) + z mod 18446744073709551616)
    with (z mod 18446744073709551616 + (4294967296 * (z / 18446744073709551616)) * 4294967296) by lia.
  now rewrite Z.mod_add by lia.
Qed.
Lemma s32_u32 z : s32 (u32 z) = s32 z.
Proof. apply s32_cong. unfold u32. apply Z.mod_mod. lia. Qed.
Lemma u32_s32 z : u32 (s32 z) = u32 z.
Proof. apply s32_mod. Qed.
Lemma s32_u64 z : s32 (u64 z) = s32 z.
Proof. rewrite <- s32_u32, u32_u64. apply s32_u32. Qed.
