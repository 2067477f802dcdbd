(** Skip against the record grammar. *)
From Coq Require Import ZArith List Bool Lia.
From Verif Require Import Base BaseFacts Schema Value Helpers WireSpec RecordSpec VarintFacts.
Import ListNotations.
Open Scope Z_scope.



Lemma lor_0_l' x : Z.lor 0 x = x. Proof. apply Z.lor_0_l. Qed.

Lemma land7 x : Z.land x 7 = x mod 8.
Proof. change 7 with (Z.ones 3). now rewrite Z.land_ones by lia. Qed.
Lemma shiftr3 x : Z.shiftr x 3 = x / 8.
Proof. now rewrite Z.shiftr_div_pow2 by lia. Qed.

Lemma tag_wt t num wt : is_tag t num wt -> Z.land (u64 (vval t)) 7 = wt.
Proof.
  intros (H1 & H2 & H3 & H4 & H5). unfold u64. rewrite H5, land7.
  rewrite Z.add_comm, Z.mod_add by lia. now apply Z.mod_small.
Qed.
Lemma tag_num t num wt : is_tag t num wt -> Z.shiftr (u64 (vval t)) 3 = num.
Proof.
  intros (H1 & H2 & H3 & H4 & H5). unfold u64. rewrite H5, shiftr3.
  rewrite Z.add_comm, Z.div_add by lia. rewrite Z.div_small by lia. lia.
Qed.

(** Any varint of at most 10 bytes is a tag. *)
Lemma varint_is_tag t : is_varint t = true -> zlen t <= 10 ->
  is_tag t (Z.shiftr (u64 (vval t)) 3) (Z.land (u64 (vval t)) 7).
Proof.
  intros H1 H2. pose proof (u64_range (vval t)).
  rewrite shiftr3, land7. split; [assumption|]. split; [assumption|].
  split; [apply Z.div_pos; lia|]. split; [apply Z.mod_pos_bound; lia|].
  fold (u64 (vval t)). pose proof (Z.div_mod (u64 (vval t)) 8). lia.
Qed.

Lemma len_s64 l n : is_len l n -> n < 9223372036854775808 -> s64 (vval l) = n.
Proof.
  intros (H1 & H2 & H3) Hn. rewrite <- s64_u64. unfold u64. rewrite H3.
  pose proof (Z.mod_pos_bound (vval l) 18446744073709551616). apply s64_id. lia.
Qed.

Lemma len_of_s64 l : is_varint l = true -> zlen l <= 10 -> 0 <= s64 (vval l) -> is_len l (s64 (vval l)).
Proof.
  intros H1 H2 H. split; [assumption|]. split; [assumption|]. unfold s64 in *. cbv zeta in *.
  pose proof (Z.mod_pos_bound (vval l) 18446744073709551616).
  destruct (_ <? _) eqn:E; lia.
Qed.

(** The reader succeeds on a varint of at most 10 bytes or returns an error. *)
Lemma read_cases w p rest : conv_ok w -> bytes_ok rest = true ->
  (exists bs s, rest = bs ++ s /\ is_varint bs = true /\ zlen bs <= 10 /\
     read_varint 11 w (p ++ rest) (zlen p) 0 0 = Ok (w (vval bs), zlen p + zlen bs)) \/
  exists e, read_varint 11 w (p ++ rest) (zlen p) 0 0 = Err e tt.
Proof.
  intros C Hb. pose proof (decodeVarint_any w 0 p rest C Hb) as V. unfold decodeVarint in V.
  destruct V; eauto. left. rewrite Z.lor_0_l. eauto 10.
Qed.

(** One tag read by the loop. *)
Lemma skip_loop_tag fuel p t s depth : is_varint t = true -> zlen t <= 10 ->
  skip_loop (S fuel) (p ++ t ++ s) (zlen p) depth
  = (do r <- skip_value (p ++ t ++ s) (Z.land (u64 (vval t)) 7) (zlen p + zlen t) depth;
     let (i, depth) := r in
     if i <? 0 then Err EInvalidLength tt else
     if depth =? 0 then Ok i else skip_loop fuel (p ++ t ++ s) i depth).
Proof.
  intros H1 H2. cbn [skip_loop]. destruct t as [|b t]; [discriminate|].
  rewrite (zlen_app p), (zlen_app (b :: t)), zlen_cons.
  pose proof (zlen_nonneg t). pose proof (zlen_nonneg s).
  replace (zlen p + (1 + zlen t + zlen s) <=? zlen p) with false by lia.
  rewrite <- zlen_cons with (x := b).
  pose proof (decodeVarint_ok u64 0 (b :: t) p s conv_u64 H1 H2) as E.
  unfold decodeVarint in E. rewrite E. cbn [rbind]. now rewrite Z.lor_0_l.
Qed.

(** Completeness *)
Definition skips (bs : list Z) : Prop :=
  exists k, (1 <= k <= length bs)%nat /\ forall fuel p s depth, 0 <= depth -> small (p ++ bs ++ s) ->
    skip_loop (k + fuel) (p ++ bs ++ s) (zlen p) depth
    = if depth =? 0 then Ok (zlen p + zlen bs)
      else skip_loop fuel (p ++ bs ++ s) (zlen p + zlen bs) depth.
Definition skips_many (bs : list Z) : Prop :=
  exists k, (k <= length bs)%nat /\ forall fuel p s depth, 0 < depth -> small (p ++ bs ++ s) ->
    skip_loop (k + fuel) (p ++ bs ++ s) (zlen p) depth
    = skip_loop fuel (p ++ bs ++ s) (zlen p + zlen bs) depth.

Lemma skip_value_skips num wt t v : is_tag t num wt -> 0 <= wt < 6 -> wt <> 3 -> wt <> 4 ->
  (forall p s depth, small (p ++ v ++ s) ->
     skip_value (p ++ v ++ s) wt (zlen p) depth = Ok (zlen p + zlen v, depth)) ->
  skips (t ++ v).
Proof.
  intros Ht Hw H3 H4 Hv. exists 1%nat. pose proof Ht as (T1 & T2 & _).
  split. { rewrite app_length. apply is_varint_ne in T1. destruct t; [contradiction|cbn; lia]. }
  intros fuel p s depth Hd Hs. cbn [Nat.add]. rewrite <- app_assoc in *.
  rewrite skip_loop_tag by assumption. rewrite (tag_wt _ _ _ Ht).
  rewrite app_assoc. replace (zlen p + zlen t) with (zlen (p ++ t)) by apply zlen_app.
  rewrite Hv by (now rewrite <- app_assoc). cbn [rbind].
  pose proof (zlen_nonneg (p ++ t)). pose proof (zlen_nonneg v).
  replace (_ <? 0) with false by lia. rewrite !zlen_app.
  replace (zlen p + zlen t + zlen v) with (zlen p + (zlen t + zlen v)) by lia. reflexivity.
Qed.

Lemma record_skips mt : (forall num wt r, record mt num wt r -> skips r) /\ (forall rs, records mt rs -> skips_many rs).
Proof.
  assert (forall num wt r, record mt num wt r -> skips r) as A.
  2:{ split; [assumption|].
      induction 1 as [|num wt r rs Hr _ IH].
      - exists 0%nat. split; [cbn; lia|]. intros. cbn [Nat.add]. f_equal.
        change (zlen (@nil Z)) with 0. lia.
      - destruct (A _ _ _ Hr) as (k1 & K1 & E1). destruct IH as (k2 & K2 & E2).
        exists (k1 + k2)%nat. rewrite app_length. split; [lia|].
        intros fuel p s depth Hd Hs. rewrite <- app_assoc in *.
        rewrite <- Nat.add_assoc, E1 by (auto; lia).
        replace (depth =? 0) with false by lia.
        replace (zlen p + zlen r) with (zlen (p ++ r)) by apply zlen_app.
        rewrite (app_assoc p r) in *. rewrite E2 by auto. f_equal. rewrite !zlen_app. lia. }
  apply (record_mut mt (fun _ _ r => skips r) skips_many).
  - intros num t v Ht Hv Hl. apply (skip_value_skips num 0); try lia; auto.
    intros p s depth Hs. cbn [skip_value].
    pose proof (decodeVarint_ok u64 0 v p s conv_u64 Hv Hl) as E. unfold decodeVarint in E.
    rewrite skip_varint_read, E. reflexivity.
  - intros num t b Ht Hb. apply (skip_value_skips num 1); try lia; auto.
    intros p s depth Hs. cbn [skip_value]. unfold small in Hs. rewrite !zlen_app in Hs.
    pose proof (zlen_nonneg p). pose proof (zlen_nonneg s).
    rewrite s64_id, Hb by lia. reflexivity.
  - intros num t l b Ht Hl. apply (skip_value_skips num 2); try lia; auto.
    intros p s depth Hs. cbn [skip_value]. rewrite <- app_assoc.
    pose proof Hl as (L1 & L2 & L3).
    pose proof (decodeVarint_ok s64 0 l p (b ++ s) conv_s64 L1 L2) as E. unfold decodeVarint in E.
    rewrite E. cbn [rbind]. rewrite Z.lor_0_l. unfold small in Hs. rewrite !zlen_app in *.
    pose proof (zlen_nonneg p). pose proof (zlen_nonneg s). pose proof (zlen_nonneg b). pose proof (zlen_nonneg l).
    rewrite (len_s64 l (zlen b)) by (auto; lia).
    replace (zlen b <? 0) with false by lia. rewrite s64_id by lia. do 2 f_equal. lia.
  - intros num t body e num' Ht _ (k & K & E) He _.
    pose proof Ht as (T1 & T2 & _). pose proof He as (E1 & E2 & _).
    exists (S (k + 1)). rewrite !app_length.
    assert (1 <= length t)%nat by (apply is_varint_ne in T1; destruct t; [contradiction|cbn; lia]).
    assert (1 <= length e)%nat by (apply is_varint_ne in E1; destruct e; [contradiction|cbn; lia]).
    split; [lia|]. intros fuel p s depth Hd Hs.
    rewrite <- !app_assoc in *. cbn [Nat.add]. rewrite skip_loop_tag by assumption.
    rewrite (tag_wt _ _ _ Ht). cbn [skip_value rbind].
    pose proof (zlen_nonneg p). pose proof (zlen_nonneg t).
    replace (zlen p + zlen t <? 0) with false by lia.
    replace (depth + 1 =? 0) with false by lia.
    replace (zlen p + zlen t) with (zlen (p ++ t)) by apply zlen_app.
    rewrite (app_assoc p t) in *. rewrite <- Nat.add_assoc. rewrite E by (auto; lia).
    replace (zlen (p ++ t) + zlen body) with (zlen ((p ++ t) ++ body)) by apply zlen_app.
    rewrite (app_assoc (p ++ t) body) in *. cbn [Nat.add]. rewrite skip_loop_tag by assumption.
    rewrite (tag_wt _ _ _ He). cbn [skip_value].
    replace (depth + 1 =? 0) with false by lia. cbn [rbind].
    replace (zlen ((p ++ t) ++ body) + zlen e <? 0) with false
      by (pose proof (zlen_nonneg ((p ++ t) ++ body)); pose proof (zlen_nonneg e); lia).
    replace (depth + 1 - 1) with depth by lia. rewrite !zlen_app.
    replace (zlen p + zlen t + zlen body + zlen e) with (zlen p + (zlen t + (zlen body + zlen e))) by lia.
    reflexivity.
  - intros num t b Ht Hb. apply (skip_value_skips num 5); try lia; auto.
    intros p s depth Hs. cbn [skip_value]. unfold small in Hs. rewrite !zlen_app in Hs.
    pose proof (zlen_nonneg p). pose proof (zlen_nonneg s).
    rewrite s64_id, Hb by lia. reflexivity.
  - exists 0%nat. split; [cbn; lia|]. intros. cbn [Nat.add]. f_equal.
    change (zlen (@nil Z)) with 0. lia.
  - intros num wt r rs _ (k1 & K1 & E1) _ (k2 & K2 & E2).
    exists (k1 + k2)%nat. rewrite app_length. split; [lia|].
    intros fuel p s depth Hd Hs. rewrite <- app_assoc in *.
    rewrite <- Nat.add_assoc, E1 by (auto; lia).
    replace (depth =? 0) with false by lia.
    replace (zlen p + zlen r) with (zlen (p ++ r)) by apply zlen_app.
    rewrite (app_assoc p r) in *. rewrite E2 by auto. f_equal. rewrite !zlen_app. lia.
Qed.

Lemma Skip_complete mt num wt r s : record mt num wt r -> small (r ++ s) ->
  Skip (r ++ s) = Ok (zlen r).
Proof.
  intros H Hs. destruct (proj1 (record_skips mt) _ _ _ H) as (k & K & E).
  unfold Skip. rewrite app_length.
  replace (S (length r + length s)) with (k + (S (length r + length s) - k))%nat by lia.
  specialize (E (S (length r + length s) - k)%nat [] s 0 ltac:(lia) Hs). exact E.
Qed.

(** Soundness *)
Fixpoint closes (d : nat) (bs : list Z) : Prop :=
  match d with
  | O => bs = []
  | S d' => exists rs e num bs', bs = rs ++ e ++ bs' /\ records false rs /\ is_tag e num 4 /\ closes d' bs'
  end.

Definition skipped (d : nat) (bs : list Z) : Prop :=
  match d with O => exists num wt, record false num wt bs | S _ => closes d bs end.

Lemma closes_cons d num wt r bs : record false num wt r -> closes (S d) bs -> closes (S d) (r ++ bs).
Proof.
  intros Hr (rs & e & num' & bs' & -> & H1 & H2 & H3).
  exists (r ++ rs), e, num', bs'. rewrite <- app_assoc. repeat split; auto; try apply H2.
  now apply (recs_cons false num wt).
Qed.

Lemma s64_sum a b : 0 <= a < 9223372036854775808 -> 0 <= b < 9223372036854775808 ->
  0 <= s64 (a + b) -> s64 (a + b) = a + b.
Proof.
  intros Ha Hb H. destruct (Z_lt_dec (a + b) 9223372036854775808).
  - apply s64_id. lia.
  - exfalso. unfold s64 in H. rewrite (Z.mod_small (a + b)) in H by lia.
    cbv zeta in H. replace (a + b <? 9223372036854775808) with false in H by lia. lia.
Qed.

Lemma of_nat_S_eqb d : (Z.of_nat (S d) =? 0) = false.
Proof. reflexivity. Qed.

Lemma skip_loop_sound fuel : forall p rest d n, bytes_ok rest = true -> small (p ++ rest) ->
  skip_loop fuel (p ++ rest) (zlen p) (Z.of_nat d) = Ok n -> n <= zlen (p ++ rest) ->
  exists bs s, rest = bs ++ s /\ n = zlen p + zlen bs /\ skipped d bs.
Proof.
  induction fuel as [|fuel IH]; intros p rest d n Hb Hs H Hn; [discriminate|].
  assert (zlen (p ++ rest) <=? zlen p = false) as L.
  { destruct (zlen (p ++ rest) <=? zlen p) eqn:E; [|reflexivity].
    cbn [skip_loop] in H. rewrite E in H. discriminate. }
  destruct (read_cases u64 p rest conv_u64 Hb) as [(t & s0 & -> & Ht & Hl & Eq)|(e & Eq)].
  2: cbn [skip_loop] in H; rewrite L, Eq in H; discriminate.
  clear Eq L. rewrite skip_loop_tag in H by assumption.
  pose proof (varint_is_tag t Ht Hl) as T.
  set (num := Z.shiftr (u64 (vval t)) 3) in *. set (wt := Z.land (u64 (vval t)) 7) in *.
  rewrite bytes_ok_app in Hb. apply andb_true_iff in Hb as [Hbt Hbs].
  (* the loop after a value [v] *)
  assert (forall v s, s0 = v ++ s -> record false num wt (t ++ v) ->
     (if Z.of_nat d =? 0 then Ok (zlen p + zlen t + zlen v)
      else skip_loop fuel (p ++ t ++ s0) (zlen p + zlen t + zlen v) (Z.of_nat d)) = Ok n ->
     exists bs s, t ++ s0 = bs ++ s /\ n = zlen p + zlen bs /\ skipped d bs) as K.
  { intros v s -> R E. destruct d as [|d].
    - cbn in E. injection E as <-. exists (t ++ v), s. rewrite <- app_assoc, zlen_app.
      split; [reflexivity|]. split; [lia|]. cbn. eauto.
    - rewrite of_nat_S_eqb in E.
      rewrite bytes_ok_app in Hbs. apply andb_true_iff in Hbs as [_ Hbs].
      replace (zlen p + zlen t + zlen v) with (zlen (p ++ t ++ v)) in E by (rewrite !zlen_app; lia).
      replace (p ++ t ++ v ++ s) with ((p ++ t ++ v) ++ s) in E by (now rewrite <- !app_assoc).
      apply IH in E; auto; try (rewrite <- !app_assoc; assumption).
      destruct E as (bs & s' & -> & -> & C). exists ((t ++ v) ++ bs), s'.
      rewrite <- !app_assoc, !zlen_app. split; [reflexivity|]. split; [lia|].
      cbn [skipped] in *. rewrite app_assoc. eapply closes_cons; eauto. }
  (* values given by their length only *)
  assert (forall c, 0 <= c < 9223372036854775808 -> (forall v, zlen v = c -> record false num wt (t ++ v)) ->
     (if s64 (zlen p + zlen t + c) <? 0 then Err EInvalidLength tt else
      if Z.of_nat d =? 0 then Ok (s64 (zlen p + zlen t + c))
      else skip_loop fuel (p ++ t ++ s0) (s64 (zlen p + zlen t + c)) (Z.of_nat d)) = Ok n ->
     exists bs s, t ++ s0 = bs ++ s /\ n = zlen p + zlen bs /\ skipped d bs) as K'.
  { intros c Hc R E. unfold small in Hs. rewrite !zlen_app in *.
    pose proof (zlen_nonneg p). pose proof (zlen_nonneg t). pose proof (zlen_nonneg s0).
    destruct (_ <? 0) eqn:N; [discriminate|].
    rewrite s64_sum in * by lia.
    destruct (Z_le_dec c (zlen s0)) as [Lc|Lc].
    - destruct (split_at s0 c) as (v & s & -> & Lv); [lia|].
      apply (K v s); auto. now rewrite Lv.
    - exfalso. destruct (Z.of_nat d =? 0); [injection E as <-; lia|].
      destruct fuel; [discriminate|]. cbn [skip_loop] in E. rewrite !zlen_app in E.
      replace (zlen p + (zlen t + zlen s0) <=? zlen p + zlen t + c) with true in E by lia. discriminate. }
  unfold skip_value in H. pose proof T as (_ & _ & _ & T4 & _).
  assert (wt = 0 \/ wt = 1 \/ wt = 2 \/ wt = 3 \/ wt = 4 \/ wt = 5 \/ wt = 6 \/ wt = 7) as W by lia.
  destruct W as [W|[W|[W|[W|[W|[W|[W|W]]]]]]]; rewrite W in H; cbn [rbind] in H; try discriminate.
  - (* varint *)
    rewrite skip_varint_read in H.
    replace (zlen p + zlen t) with (zlen (p ++ t)) in H by apply zlen_app.
    rewrite (app_assoc p t s0) in H.
    destruct (read_cases u64 (p ++ t) s0 conv_u64 Hbs) as [(v & s & Er & Hv & Hvl & Eq)|(e & Eq)];
      rewrite Eq in H; [|discriminate].
    cbn [rbind] in H. pose proof (zlen_nonneg (p ++ t)). pose proof (zlen_nonneg v).
    replace (zlen (p ++ t) + zlen v <? 0) with false in H by lia.
    apply (K v s); auto.
    + rewrite W in T. rewrite W. now apply rec_varint.
    + rewrite <- app_assoc, zlen_app in H. exact H.
  - apply (K' 8); auto; [lia|]. intros v Lv. rewrite W in T. rewrite W. now apply rec_fix64.
  - (* length-delimited *)
    replace (zlen p + zlen t) with (zlen (p ++ t)) in H by apply zlen_app.
    rewrite (app_assoc p t s0) in H.
    destruct (read_cases s64 (p ++ t) s0 conv_s64 Hbs) as [(l & s & Er & Hv & Hvl & Eq)|(e & Eq)];
      rewrite Eq in H; [|discriminate]. clear Eq.
    cbn [rbind] in H. destruct (s64 (vval l) <? 0) eqn:N; [discriminate|].
    cbn [rbind] in H. pose proof (s64_range (vval l)).
    subst s0. rewrite bytes_ok_app in Hbs. apply andb_true_iff in Hbs as [Hbl Hbs].
    (* payload of the announced length *)
    unfold small in Hs. rewrite !zlen_app in *.
    pose proof (zlen_nonneg p). pose proof (zlen_nonneg t). pose proof (zlen_nonneg s). pose proof (zlen_nonneg l).
    destruct (_ <? 0) eqn:N' in H; [discriminate|].
    rewrite (s64_sum (zlen p + zlen t + zlen l)) in * by lia.
    destruct (Z_le_dec (s64 (vval l)) (zlen s)) as [Lc|Lc].
    + destruct (split_at s (s64 (vval l))) as (v & s' & -> & Lv); [lia|].
      apply (K (l ++ v) s').
      * now rewrite <- app_assoc.
      * rewrite W in T. rewrite W. apply rec_len; [assumption|].
        rewrite Lv. apply len_of_s64; auto; lia.
      * rewrite zlen_app, Lv. rewrite <- !app_assoc in *.
        replace (zlen p + zlen t + (zlen l + s64 (vval l))) with (zlen p + zlen t + zlen l + s64 (vval l)) by lia.
        exact H.
    + exfalso. destruct (Z.of_nat d =? 0); [injection H as <-; lia|].
      destruct fuel; [discriminate|]. cbn [skip_loop] in H. rewrite !zlen_app in H.
      replace (zlen p + zlen t + (zlen l + zlen s) <=? zlen p + zlen t + zlen l + s64 (vval l)) with true in H by lia.
      discriminate.
  - (* group start *)
    pose proof (zlen_nonneg p). pose proof (zlen_nonneg t).
    replace (zlen p + zlen t <? 0) with false in H by lia.
    replace (Z.of_nat d + 1) with (Z.of_nat (S d)) in H by lia.
    rewrite of_nat_S_eqb in H.
    replace (zlen p + zlen t) with (zlen (p ++ t)) in H by apply zlen_app.
    rewrite (app_assoc p t s0) in *. apply IH in H; auto.
    destruct H as (bs & s & -> & -> & rs & e & num' & bs' & -> & Hrs & He & C).
    assert (record false num 3 (t ++ rs ++ e)) as R.
    { rewrite W in T. eapply rec_group; eauto. discriminate. }
    destruct d as [|d].
    + cbn in C. subst bs'. rewrite app_nil_r. exists (t ++ rs ++ e), s.
      rewrite <- !app_assoc, !zlen_app. split; [reflexivity|]. split; [lia|]. cbn. eauto.
    + exists ((t ++ rs ++ e) ++ bs'), s. rewrite <- !app_assoc, !zlen_app.
      split; [reflexivity|]. split; [lia|]. cbn [skipped].
      replace (t ++ rs ++ e ++ bs') with ((t ++ rs ++ e) ++ bs') by (now rewrite <- !app_assoc).
      eapply closes_cons; eauto.
  - (* group end *)
    destruct d as [|d]; [discriminate|]. rewrite of_nat_S_eqb in H.
    cbn [rbind] in H. pose proof (zlen_nonneg p). pose proof (zlen_nonneg t).
    replace (zlen p + zlen t <? 0) with false in H by lia.
    replace (Z.of_nat (S d) - 1) with (Z.of_nat d) in H by lia.
    rewrite W in T. destruct d as [|d].
    + cbn in H. injection H as <-. exists t, s0. split; [reflexivity|]. split; [reflexivity|].
      exists [], t, num, []. rewrite app_nil_r. repeat split; auto; try apply T; constructor.
    + rewrite of_nat_S_eqb in H.
      replace (zlen p + zlen t) with (zlen (p ++ t)) in H by apply zlen_app.
      rewrite (app_assoc p t s0) in *. apply IH in H; auto.
      destruct H as (bs & s & -> & -> & C). exists (t ++ bs), s.
      rewrite <- app_assoc, !zlen_app. split; [reflexivity|]. split; [lia|].
      exists [], t, num, bs. repeat split; auto; try apply T. constructor.
  - apply (K' 4); auto; [lia|]. intros v Lv. rewrite W in T. rewrite W. now apply rec_fix32.
Qed.

Lemma Skip_sound data n : bytes_ok data = true -> small data -> Skip data = Ok n -> n <= zlen data ->
  exists r s num wt, data = r ++ s /\ n = zlen r /\ record false num wt r.
Proof.
  intros Hb Hs H Hn. destruct (skip_loop_sound (S (length data)) [] data 0 n Hb Hs H Hn)
    as (bs & s & -> & -> & num & wt & R).
  exists bs, s, num, wt. auto.
Qed.

(** Totality *)
Lemma s64_sum_cases a b : 0 <= a < 9223372036854775808 -> 0 <= b < 9223372036854775808 ->
  s64 (a + b) = a + b \/ s64 (a + b) < 0.
Proof.
  intros Ha Hb. destruct (Z_lt_dec (s64 (a + b)) 0); [now right|left].
  apply s64_sum; lia.
Qed.

Lemma skip_value_total data wt i depth : bytes_ok data = true -> small data -> 0 <= i <= zlen data ->
  (exists i2 d2, skip_value data wt i depth = Ok (i2, d2) /\ (i <= i2 \/ i2 < 0)) \/
  exists e, skip_value data wt i depth = Err e tt.
Proof.
  intros Hb Hs Hi. unfold small in Hs.
  destruct (split_at data i) as (p & rest & -> & Lp); [lia|]. subst i.
  rewrite bytes_ok_app in Hb. apply andb_true_iff in Hb as [_ Hr].
  destruct (Z.eq_dec (zlen p) (zlen (p ++ rest))) as [He|Hne].
  { assert (rest = []) as ->.
    { rewrite zlen_app in He. destruct rest as [|x r]; [reflexivity|].
      rewrite zlen_cons in He. pose proof (zlen_nonneg r). lia. }
    unfold skip_value. rewrite app_nil_r in *.
    destruct (s64_sum_cases (zlen p) 8) as [E8|E8]; try lia;
    destruct (s64_sum_cases (zlen p) 4) as [E4|E4]; try lia;
    destruct wt as [|[[[]|[]|]|[[]|[]|]|]|]; eauto;
    try (left; do 2 eexists; split; [reflexivity|]; lia);
    try (destruct (depth =? 0); eauto; left; do 2 eexists; split; [reflexivity|lia]).
    all: try rewrite skip_varint_read; cbn [read_varint];
      replace (zlen p <=? zlen p) with true by lia; cbn; eauto. }
  rewrite zlen_app in *. pose proof (zlen_nonneg p). pose proof (zlen_nonneg rest).
  unfold skip_value.
  destruct (s64_sum_cases (zlen p) 8) as [E8|E8]; try lia;
  destruct (s64_sum_cases (zlen p) 4) as [E4|E4]; try lia;
  destruct wt as [|[[[]|[]|]|[[]|[]|]|]|]; eauto;
  try (left; do 2 eexists; split; [reflexivity|]; lia);
  try (destruct (depth =? 0); eauto; left; do 2 eexists; split; [reflexivity|lia]).
  all: try rewrite skip_varint_read.
  all: match goal with |- context [read_varint 11 ?w] =>
         let C := fresh in assert (conv_ok w) as C by first [apply conv_u64|apply conv_s64];
         destruct (read_cases w p rest C Hr) as [(l & s & Er & Hv & Hvl & Eq)|(e & Eq)];
         rewrite Eq; clear Eq; cbn [rbind]; eauto end.
  all: pose proof (zlen_nonneg l).
  1,3,5,7: left; do 2 eexists; split; [reflexivity|lia].
  all: match goal with |- context [if ?b then _ else _] => destruct b eqn:N end; eauto;
    left; do 2 eexists; split; [reflexivity|];
    pose proof (s64_range (vval l)); subst rest; rewrite zlen_app in *; pose proof (zlen_nonneg s);
    destruct (s64_sum_cases (zlen p + zlen l) (s64 (vval l))); lia.
Qed.

Lemma skip_loop_total fuel : forall data i depth, bytes_ok data = true -> small data -> 0 <= i ->
  (Z.to_nat (zlen data - i) < fuel)%nat ->
  (exists n, skip_loop fuel data i depth = Ok n /\ i < n) \/ exists e, skip_loop fuel data i depth = Err e tt.
Proof.
  induction fuel as [|fuel IH]; intros data i depth Hb Hs Hi Hf; [lia|].
  destruct (zlen data <=? i) eqn:L; [right; eexists; cbn [skip_loop]; rewrite L; reflexivity|].
  destruct (split_at data i) as (p & rest & -> & Lp); [lia|]. subst i.
  pose proof Hb as Hb'. rewrite bytes_ok_app in Hb'. apply andb_true_iff in Hb' as [_ Hr].
  destruct (read_cases u64 p rest conv_u64 Hr) as [(t & s0 & -> & Ht & Hl & Eq)|(e & Eq)].
  2: right; eexists; cbn [skip_loop]; rewrite L, Eq; reflexivity.
  clear Eq. assert (1 <= zlen t) as Lt.
  { pose proof (is_varint_ne _ Ht). destruct t; [contradiction|]. rewrite zlen_cons. pose proof (zlen_nonneg t). lia. }
  rewrite skip_loop_tag by assumption. pose proof (zlen_nonneg p). pose proof (zlen_nonneg s0).
  destruct (skip_value_total (p ++ t ++ s0) (Z.land (u64 (vval t)) 7) (zlen p + zlen t) depth)
    as [(i2 & d2 & -> & Hi2)|(e & ->)]; auto.
  - rewrite !zlen_app. lia.
  - cbn [rbind]. destruct (i2 <? 0) eqn:N; [eauto|].
    destruct (d2 =? 0); [left; eexists; split; [reflexivity|lia]|].
    destruct (IH (p ++ t ++ s0) i2 d2) as [(n & -> & Hn)|(e & ->)]; auto; try lia; eauto.
    left. eexists. split; [reflexivity|lia].
  - cbn [rbind]. eauto.
Qed.

Lemma Skip_total data : bytes_ok data = true -> small data ->
  (exists n, Skip data = Ok n /\ 0 < n) \/ exists e, Skip data = Err e tt.
Proof.
  intros Hb Hs. apply skip_loop_total; auto; [lia|]. unfold zlen. lia.
Qed.
