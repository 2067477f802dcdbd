(** A bound on the memory decoding takes (C58): the schemas whose maps hold only numbers, and
    conforming input. *)
From Coq Require Import ZArith List Bool Lia.
From Verif Require Import Base BaseFacts Schema Value Helpers Unmarshal WireSpec Typing Unsafe RecordSpec SkipFacts ViewFacts DecodeSpec DecodeFacts AmplifySpec.
Import ListNotations.
Open Scope Z_scope.

Notation sum l := (fold_right (fun x n => cells x + n) 0 l).
Notation sums h := (fold_right (fun l n => sum l + n) 0 h).
Notation sum2 l := (fold_right (fun e n => cells (fst e) + cells (snd e) + n) 0 l).

Lemma cells_pos : forall v, 1 <= cells v.
Proof.
  fix IH 1. intros v.
  assert (forall l, 0 <= sum l) as Hl by (induction l as [|x l Il]; cbn [fold_right]; [lia|pose proof (IH x); lia]).
  assert (forall l, 0 <= sum2 l) as Hm by (induction l as [|x l Il]; cbn [fold_right]; [lia|pose proof (IH (fst x)); pose proof (IH (snd x)); lia]).
  assert (forall l, 0 <= sums l) as Hs by (induction l as [|x l Il]; cbn [fold_right]; [lia|pose proof (Hl x); lia]).
  destruct v; cbn [cells]; try lia; try (pose proof (zlen_nonneg s); lia).
  - pose proof (IH v); lia.
  - pose proof (Hl l); lia.
  - pose proof (Hm l); lia.
  - pose proof (IH v); lia.
  - pose proof (Hl slots); pose proof (Hs hid); pose proof (zlen_nonneg unk); lia.
Qed.

Lemma sum_nonneg l : 0 <= sum l.
Proof. induction l as [|x l IH]; cbn [fold_right]; [lia|pose proof (cells_pos x); lia]. Qed.
Lemma sums_nonneg l : 0 <= sums l.
Proof. induction l as [|x l IH]; cbn [fold_right]; [lia|pose proof (sum_nonneg x); lia]. Qed.
Lemma sum2_nonneg l : 0 <= sum2 l.
Proof. induction l as [|x l IH]; cbn [fold_right]; [lia|pose proof (cells_pos (fst x)); pose proof (cells_pos (snd x)); lia]. Qed.
Lemma sum_app a b : sum (a ++ b) = sum a + sum b.
Proof. induction a as [|x a IH]; cbn [fold_right app]; lia. Qed.

Lemma sum_set s i x : sum (list_set s i x) + cells (slot s i) <= sum s + cells x.
Proof.
  revert i. induction s as [|y s IH]; intros i.
  - destruct i; cbn [list_set fold_right]; unfold slot; cbn [nth cells]; pose proof (cells_pos x); lia.
  - destruct i as [|i]; cbn [list_set fold_right]; unfold slot in *; cbn [nth]; [lia|]. specialize (IH i). lia.
Qed.
Lemma sums_set h i x rest : nth i h [] = x :: rest -> sums (list_set h i rest) + cells x = sums h.
Proof.
  revert i. induction h as [|y h IH]; intros [|i] E; cbn [nth] in E; try discriminate; cbn [list_set fold_right].
  - subst. cbn [fold_right]. lia.
  - specialize (IH i E). lia.
Qed.
Lemma sum2_set l k x : sum2 (map_set l k x) <= sum2 l + cells k + cells x.
Proof.
  induction l as [|[k' v'] l IH]; cbn [map_set fold_right fst snd]; [lia|].
  destruct (key_eqb k k'); cbn [fold_right fst snd]; [pose proof (cells_pos k); pose proof (cells_pos v'); lia|lia].
Qed.
Lemma cells_vlist old xs : cells (VList (vlist old ++ xs)) <= cells old + sum xs.
Proof. cbn [cells]. rewrite sum_app. pose proof (cells_pos old). destruct old; cbn [vlist fold_right]; try lia. cbn [cells]. lia. Qed.
Lemma cells_vmap old : cells (VMap (vmap old)) <= cells old.
Proof. pose proof (cells_pos old). destruct old; cbn [vmap]; try (cbn [cells fold_right] in *; lia). Qed.
Lemma cells_slot v i x v' old : get_slot v i = Some old -> set_slot v i x = Some v' -> cells v' + cells old <= cells v + cells x.
Proof.
  destruct v; try discriminate. cbn [get_slot set_slot]. intros [= <-] [= <-]. cbn [cells]. pose proof (sum_set slots i x). lia.
Qed.
Lemma set_get v i x v' : set_slot v i x = Some v' -> exists old, get_slot v i = Some old.
Proof. destruct v; try discriminate. cbn. eauto. Qed.
Lemma cells_set v i x v' : set_slot v i x = Some v' -> cells v' + 1 <= cells v + cells x.
Proof. intros E. destruct (set_get _ _ _ _ E) as [old G]. pose proof (cells_slot _ _ _ _ _ G E). pose proof (cells_pos old). lia. Qed.
Lemma get_set v i x v' : set_slot v i x = Some v' -> get_slot v' i = Some x \/ v' = v.
Proof.
  destruct v; try discriminate. cbn [set_slot get_slot]. intros [= <-]. cbn [get_slot].
  destruct (Nat.lt_ge_cases i (length slots)) as [L|L].
  - left. f_equal. unfold slot. revert i L. induction slots as [|y s IH]; intros [|i] L; cbn in *; try lia; [reflexivity|apply IH; lia].
  - right. f_equal. revert i L. induction slots as [|y s IH]; intros [|i] L; cbn in *; try lia; try reflexivity. f_equal. apply IH. lia.
Qed.

Lemma cells_zero md i : cells (zero_slot md i) = 1.
Proof. unfold zero_slot. destruct (find _ _) as [f|]; [|reflexivity]. destruct (f_ty f) as [[] k|kk vk]; cbn; try reflexivity; destruct k; reflexivity. Qed.
Lemma cells_new md : cells (new_msg md) = 1 + Z.of_nat (md_nslots md).
Proof.
  unfold new_msg, zero_slots. cbn [cells fold_right]. change (zlen []) with 0.
  enough (forall n a, sum (map (zero_slot md) (seq a n)) = Z.of_nat n) as E by (rewrite E; lia).
  induction n as [|n IH]; intros a; cbn [seq map fold_right]; [reflexivity|]. rewrite IH, cells_zero. lia.
Qed.

Lemma cells_store f lbl k x v v' : store f lbl k x v = Some v' -> cells v' <= cells v + cells x.
Proof.
  unfold store. destruct lbl.
  - intros E. apply cells_set in E. lia.
  - intros E. apply cells_set in E. destruct (classify k); cbn [cells] in E; lia.
  - intros E. apply cells_set in E. destruct (classify k); cbn [cells] in E; lia.
  - destruct (get_slot v (f_slot f)) as [old|] eqn:G; [|discriminate]. intros E. pose proof (cells_slot _ _ _ _ _ G E).
    pose proof (cells_vlist old [x]). cbn [fold_right] in *. lia.
  - intros E. apply cells_set in E. cbn [cells] in E. lia.
Qed.

(** * Positions *)
Lemma read_varint_step fuel w data : forall i sh acc z j, read_varint fuel w data i sh acc = Ok (z, j) -> i < j <= zlen data.
Proof.
  induction fuel as [|fuel IH]; intros i sh acc z j; cbn [read_varint]; [discriminate|].
  destruct (64 <=? sh); [discriminate|]. destruct (zlen data <=? i) eqn:E; [discriminate|].
  destruct (zget data i) as [b|]; [|discriminate]. cbn [orpanic rbind]. cbv zeta.
  destruct (b <? 128); [intros [= <- <-]; lia|]. intros H. apply IH in H. lia.
Qed.
Lemma varint_pos w acc data i z j : decodeVarint w acc data i = Ok (z, j) -> i < j <= zlen data.
Proof. apply read_varint_step. Qed.
Lemma fixed_pos n data i z j : (0 < n)%nat -> decodeFixed n data i = Ok (z, j) -> i < j <= zlen data.
Proof.
  unfold decodeFixed. intros Hn. destruct (_ <? _); [discriminate|]. destruct (zslice data i (i + Z.of_nat n)) eqn:E; [|discriminate].
  cbn [orpanic rbind]. intros [= _ <-]. unfold zslice in E. destruct ((0 <=? i) && (i <=? i + Z.of_nat n) && (i + Z.of_nat n <=? zlen data)) eqn:B; [lia|discriminate].
Qed.
Lemma number_pos k acc data i z j : decodeNumber k acc data i = Ok (z, j) -> i < j <= zlen data.
Proof.
  unfold decodeNumber.
  assert (forall n, (0 < n)%nat -> (do r <- decodeFixed n data i; Ok (fixed_conv k (fst r), snd r)) = @Ok unit _ (z, j) -> i < j <= zlen data) as F.
  { intros n Hn. destruct (decodeFixed n data i) as [[a b]| | |] eqn:E; cbn [rbind fst snd]; try discriminate. intros [= _ <-]. eapply fixed_pos; eauto. }
  assert ((do r <- decodeVarint (varint_conv k) 0 data i; Ok (varint_post k (fst r), snd r)) = @Ok unit _ (z, j) -> i < j <= zlen data) as V.
  { destruct (decodeVarint _ _ _ _) as [[a b]| | |] eqn:E; cbn [rbind fst snd]; try discriminate. intros [= _ <-]. eapply varint_pos; eauto. }
  destruct (classify k); auto; try (apply F; lia). apply varint_pos.
Qed.
Lemma len_pos b data i j post : 0 <= i -> small data -> decodeLen b data i = Ok (j, post) -> i < j /\ j <= post <= zlen data.
Proof.
  intros Hi S. unfold decodeLen.
  assert (forall len j0, i < j0 <= zlen data -> 
    (if len <? 0 then Err EInvalidLength tt else let post := s64 (j0 + len) in
     if post <? 0 then Err EInvalidLength tt else if zlen data <? post then Err EUnexpectedEOF tt else Ok (j0, post)) = Ok (j, post) ->
    len < 9223372036854775808 -> i < j /\ j <= post <= zlen data) as G.
  { intros len j0 H. cbv zeta. destruct (len <? 0) eqn:E1; [discriminate|]. destruct (s64 (j0 + len) <? 0) eqn:E2; [discriminate|].
    destruct (zlen data <? s64 (j0 + len)) eqn:E3; [discriminate|]. intros [= <- <-] Hl. unfold small in S.
    destruct (s64_sum_cases j0 len ltac:(lia) ltac:(lia)) as [E|E]; lia. }
  destruct b.
  - destruct (decodeVarint u64 0 data i) as [[a c]| | |] eqn:E; cbn [rbind fst snd]; try discriminate. intros H.
    eapply G; [eapply varint_pos; exact E|exact H|]. pose proof (s64_range a). lia.
  - destruct (decodeVarint s64 0 data i) as [[a c]| | |] eqn:E; cbn [rbind fst snd]; try discriminate. intros H.
    eapply G; [eapply varint_pos; exact E|exact H|].
    enough (forall fuel i sh acc, read_varint fuel s64 data i sh acc = Ok (a, c) -> acc < 9223372036854775808 -> -9223372036854775808 <= acc -> a < 9223372036854775808) as R
      by (eapply R; [exact E|lia|lia]).
    clear. induction fuel as [|fuel IH]; intros i sh acc; cbn [read_varint]; [discriminate|].
    destruct (64 <=? sh); [discriminate|]. destruct (_ <=? i); [discriminate|]. destruct (zget data i) as [b|]; [|discriminate]. cbn [orpanic rbind].
    cbv zeta. set (x := Z.lor acc _). intros H A B.
    assert (-9223372036854775808 <= x < 9223372036854775808) as X by (apply ViewFacts.lor_ranges64; [lia|apply s64_range]).
    destruct (b <? 128); [injection H as <- _; lia|]. eapply IH; [exact H|lia|lia].
Qed.

(** * The bound *)
(** No result of [r] takes more than [b]. *)
Definition under (r : res val val) (b : Z) : Prop :=
  match r with Ok x | Err _ x => cells x <= b | _ => True end.

Section Bound.
Variable sc : schema.
Variable K : Z.
Hypothesis Rt : rate sc K.
Hypothesis Nm : number_maps sc.
Variable rec : Z -> nat -> list Z -> val -> res val val.
Hypothesis Hrec : forall i m buf v, small buf -> under (rec i m buf v) (cells v + K * zlen buf).
Variable env : uenv.
Hypothesis Ea : forall i m, cells (ue_alloc env i m) <= 1 + Z.of_nat (md_nslots (md_of sc m)).
Hypothesis Es : forall i s, cells (ue_str env i s) <= 1 + zlen s.
Hypothesis Eb : forall i s, cells (ue_bytes env i s) <= 1 + zlen s.

Lemma rate_pos : 2 <= K. Proof. pose proof (rate_new sc K Rt 0%nat). lia. Qed.
Lemma pay a b : a <= b -> K * a <= K * b.
Proof. intros. apply Z.mul_le_mono_nonneg_l; [pose proof rate_pos; lia|assumption]. Qed.
Lemma pay1 n : 0 <= n -> n <= K * n.
Proof. intros. rewrite <- (Z.mul_1_l n) at 1. apply Z.mul_le_mono_nonneg_r; [assumption|pose proof rate_pos; lia]. Qed.

(** What is left to pay with, after a part of the input has been consumed. *)
Definition keeps (data : list Z) (i : Z) (v : val) (r : res val (val * Z)) : Prop :=
  match r with
  | Ok (v', j) => i <= j <= zlen data /\ cells v' + K * (zlen data - j) <= cells v + K * (zlen data - i)
  | Err _ v' => cells v' <= cells v + K * (zlen data - i)
  | _ => True
  end.

Lemma keeps_err data i v e : i <= zlen data -> keeps data i v (Err e v).
Proof. intros. cbn. pose proof (pay 0 (zlen data - i)). lia. Qed.
Lemma keeps_ok data i v v' j : i <= j <= zlen data -> cells v' <= cells v + K * (j - i) -> keeps data i v (Ok (v', j)).
Proof. intros. cbn. split; [assumption|]. replace (zlen data - i) with ((zlen data - j) + (j - i)) by lia. rewrite Z.mul_add_distr_l. lia. Qed.
Lemma keeps_from data i j v r : i <= j -> keeps data j v r -> keeps data i v r.
Proof.
  intros H. pose proof (pay (zlen data - j) (zlen data - i)). destruct r as [[v' x]|e v'| |]; cbn; try lia; intros; tauto || lia.
Qed.
Lemma keeps_trans data i j v v' r : keeps data i v (Ok (v', j)) -> keeps data j v' r -> keeps data i v r.
Proof. cbn. intros (A & B). destruct r as [[v'' x]|e v''| |]; cbn; try tauto; lia. Qed.

(** The targets and results of nested messages. *)
Lemma decode_old i m buf v : small buf -> under (decodeMessage sc rec i m buf v) (cells v + K * (1 + zlen buf)).
Proof.
  intros S. unfold decodeMessage. pose proof (zlen_nonneg buf). pose proof (pay 0 (1 + zlen buf)). pose proof (cells_pos v). destruct (md_foreign (md_of sc m)).
  - assert (under (match up_dec (sc_up sc) m buf with Some v => Ok v | None => Err EUpstream v end) (cells v + K * (1 + zlen buf))) as G.
    { destruct (up_dec (sc_up sc) m buf) as [x|] eqn:E; cbn [under]; [|lia]. pose proof (rate_dec sc K Rt _ _ _ E). lia. }
    destruct v; try exact G. exact Logic.I.
  - pose proof (Hrec i m buf v S) as R. pose proof (pay (zlen buf) (1 + zlen buf)).
    destruct (rec i m buf v); cbn [under] in *; try lia; exact Logic.I.
Qed.
Lemma decode_new i m buf v : small buf -> cells v <= 1 + Z.of_nat (md_nslots (md_of sc m)) -> under (decodeMessage sc rec i m buf v) (K * (1 + zlen buf)).
Proof.
  intros S H. unfold decodeMessage. pose proof (zlen_nonneg buf). pose proof (pay 0 (zlen buf)). pose proof (rate_new sc K Rt m). rewrite Z.mul_add_distr_l, Z.mul_1_r.
  destruct (md_foreign (md_of sc m)).
  - assert (under (match up_dec (sc_up sc) m buf with Some v => Ok v | None => Err EUpstream v end) (K + K * zlen buf)) as G.
    { destruct (up_dec (sc_up sc) m buf) as [x|] eqn:E; cbn [under]; [|lia]. pose proof (rate_dec sc K Rt _ _ _ E) as D. rewrite Z.mul_add_distr_l, Z.mul_1_r in D. lia. }
    destruct v; try exact G. exact Logic.I.
  - pose proof (Hrec i m buf v S) as R. destruct (rec i m buf v); cbn [under] in *; try lia; exact Logic.I.
Qed.

Lemma slice_len data i j q : zslice data i j = Some q -> 0 <= i <= j /\ j <= zlen data /\ zlen q = j - i.
Proof.
  intros E. destruct (zslice_inv _ _ _ _ E) as (p & r & -> & <- & L).
  rewrite !zlen_app. pose proof (zlen_nonneg p). pose proof (zlen_nonneg q). pose proof (zlen_nonneg r). lia.
Qed.

Lemma nest_keeps r put data i v b j : i <= j <= zlen data -> under r b ->
  (forall x v', put x = Some v' -> cells x <= b -> cells v' <= cells v + K * (j - i)) ->
  keeps data i v (do v' <- nest r put; Ok (v', j)).
Proof.
  intros Hj U P. destruct r as [x|e x| |]; cbn [nest]; cbn [under] in U; try exact Logic.I.
  - destruct (put x) as [v'|] eqn:E; [|exact Logic.I]. cbn [rbind]. apply keeps_ok; eauto.
  - destruct (put x) as [v'|] eqn:E; [|exact Logic.I]. cbn [rbind keeps]. pose proof (P _ _ E U). pose proof (pay (j - i) (zlen data - i)). lia.
Qed.

Lemma message_keeps md f lbl m data i v : 0 <= i <= zlen data -> small data -> keeps data i v (message_item sc rec env md f lbl m data i v).
Proof.
  intros Hi S. unfold message_item. destruct (decodeLen false data i) as [[j post]|e []| |] eqn:E; cbn [lift rbind]; try exact Logic.I; [|apply keeps_err; lia].
  apply len_pos in E; [|lia|assumption]. destruct (zslice data j post) as [buf|] eqn:Z; [|exact Logic.I]. cbn [orpanic rbind].
  destruct (slice_len _ _ _ _ Z) as (_ & _ & Lb). assert (small buf) as Sb by (unfold small in *; lia).
  assert (K * (1 + zlen buf) <= K * (post - i)) as Pay by (apply pay; lia).
  set (fresh := if md_pool md && md_pool (md_of sc m) then ue_alloc env j m else new_msg (md_of sc m)).
  assert (cells fresh <= 1 + Z.of_nat (md_nslots (md_of sc m))) as Hf by (unfold fresh; destruct (_ && _); [apply Ea|rewrite cells_new; lia]).
  destruct v as [| | | | | | | |s u h| |]; try exact Logic.I. cbv zeta. set (old := slot s (f_slot f)).
  assert (forall x v', set_slot (VMsg s u h) (f_slot f) x = Some v' -> cells v' + cells old <= cells (VMsg s u h) + cells x) as St
    by (intros x v' H; eapply cells_slot; [reflexivity|exact H]).
  assert (keeps data i (VMsg s u h) (do v' <- nest (decodeMessage sc rec j m buf match old with VNil => fresh | _ => old end)
            (fun x' => set_slot (VMsg s u h) (f_slot f) x'); Ok (v', post))) as Single.
  { destruct (is_nil old) eqn:En.
    - replace (match old with VNil => fresh | _ => old end) with fresh by (destruct old; try discriminate En; reflexivity).
      eapply nest_keeps; [lia|apply decode_new; eassumption|]. intros x v' P L. apply St in P. pose proof (cells_pos old). lia.
    - replace (match old with VNil => fresh | _ => old end) with old by (destruct old; try discriminate En; reflexivity).
      eapply nest_keeps; [lia|apply decode_old; eassumption|]. intros x v' P L. apply St in P. lia. }
  destruct lbl; try exact Single.
  - destruct (list_grow sc md m h (f_slot f)) as [target h'] eqn:G.
    assert (cells target + sums h' <= 1 + Z.of_nat (md_nslots (md_of sc m)) + sums h /\ (cells target <= 1 + Z.of_nat (md_nslots (md_of sc m)) /\ sums h' <= sums h
      \/ cells target + sums h' <= sums h)) as [_ T].
    { unfold list_grow in G. destruct (md_pool md).
      - destruct (nth (f_slot f) h []) as [|x rest] eqn:N; injection G as <- <-.
        + rewrite cells_new. split; [lia|left; lia].
        + pose proof (sums_set h _ _ _ N). pose proof (cells_pos x). destruct x; try (split; [lia|right; lia]). rewrite cells_new. split; [lia|left; lia].
      - injection G as <- <-. rewrite cells_new. split; [lia|left; lia]. }
    assert (forall x', cells (VMsg (list_set s (f_slot f) (VList (vlist old ++ [x']))) u h') <= cells (VMsg s u h) + cells x' - sums h + sums h') as Gr.
    { intros x'. cbn [cells]. pose proof (sum_set s (f_slot f) (VList (vlist old ++ [x']))) as A. pose proof (cells_vlist old [x']) as B. fold old in A. cbn [fold_right] in B. lia. }
    destruct T as [[T1 T2]|T].
    + eapply nest_keeps; [lia|apply decode_new; eassumption|]. intros x v' [= <-] L. specialize (Gr x). lia.
    + eapply nest_keeps; [lia|apply decode_old; eassumption|]. intros x v' [= <-] L. specialize (Gr x). lia.
  - assert (keeps data i (VMsg s u h) (do v' <- (do x' <- drop_state (VMsg s u h) (decodeMessage sc rec j m buf fresh);
              orpanic (set_slot (VMsg s u h) (f_slot f) (VOneof (f_num f) x'))); Ok (v', post))) as New.
    { pose proof (decode_new j m buf fresh Sb Hf) as U. destruct (decodeMessage sc rec j m buf fresh) as [x|e x| |]; cbn [drop_state rbind]; try exact Logic.I; [|apply keeps_err; lia].
      cbn [under] in U. destruct (set_slot _ _ _) as [v'|] eqn:E1; [|exact Logic.I]. cbn [orpanic rbind]. apply St in E1. cbn [cells] in E1. pose proof (cells_pos old).
      apply keeps_ok; [lia|]. cbn [cells]. lia. }
    destruct old as [| | | | | | |n x| | |] eqn:Eo; try exact New. destruct (n =? f_num f); [|exact New].
    eapply nest_keeps; [lia|apply decode_old; eassumption|]. intros x' v' P L. apply St in P. cbn [cells] in P. cbn [cells]. cbn [cells] in L. lia.
Qed.

Lemma number_field k cur data i : is_num k = true -> forall r, mapField sc rec env k cur data i = Ok r -> i < snd r <= zlen data /\ cells (fst r) = 1.
Proof.
  intros N [x j] E. unfold mapField in E.
  assert ((do r <- decodeNumber k (vint cur) data i; Ok (VInt (fst r), snd r)) = @Ok unit _ (x, j)) as D by (destruct k; try discriminate N; exact E).
  destruct (decodeNumber k (vint cur) data i) as [[z j']| | |] eqn:En; cbn [rbind fst snd] in D; try discriminate. injection D as <- <-.
  split; [eapply number_pos; eauto|reflexivity].
Qed.
Lemma map_loop_num kk vk data post : is_num kk = true -> is_num vk = true -> forall fuel i key value r,
  cells key = 1 -> cells value = 1 -> map_loop sc rec env fuel kk vk data i post key value = Ok r -> cells (fst (fst r)) = 1 /\ cells (snd (fst r)) = 1.
Proof.
  intros Nk Nv. induction fuel as [|fuel IH]; intros i key value r Hk Hv; cbn [map_loop]; [discriminate|].
  destruct (i <? post); [|intros [= <-]; auto].
  destruct (decodeVarint u64 0 data i) as [[w j]| | |]; cbn [rbind]; try discriminate.
  destruct (_ =? 1).
  - destruct (mapField sc rec env kk key data j) as [r1| | |] eqn:E; cbn [rbind]; try discriminate. apply number_field in E as [_ E]; [|assumption]. now apply IH.
  - destruct (_ =? 2).
    + destruct (mapField sc rec env vk value data j) as [r1| | |] eqn:E; cbn [rbind]; try discriminate. apply number_field in E as [_ E]; [|assumption]. now apply IH.
    + destruct (zslice data i (zlen data)); [|discriminate]. cbn [orpanic rbind]. destruct (Skip l) as [n| | |]; cbn [rbind]; try discriminate.
      destruct (_ || _); [discriminate|]. destruct (_ <? _); [discriminate|]. now apply IH.
Qed.
Lemma map_keeps f kk vk data i v : is_num kk = true -> is_num vk = true -> 0 <= i <= zlen data -> small data -> keeps data i v (map_item sc rec env f kk vk data i v).
Proof.
  intros Nk Nv Hi S. unfold map_item. destruct (decodeLen false data i) as [[j post]|e []| |] eqn:E; cbn [lift rbind]; try exact Logic.I; [|apply keeps_err; lia].
  apply len_pos in E; [|lia|assumption]. destruct (get_slot v (f_slot f)) as [old|] eqn:G; [|exact Logic.I]. cbn [orpanic rbind].
  destruct (set_slot v (f_slot f) (VMap (vmap old))) as [v1|] eqn:S1; [|exact Logic.I]. cbn [orpanic rbind].
  pose proof (cells_slot _ _ _ _ _ G S1) as C1. pose proof (cells_vmap old) as C0. pose proof rate_pos as RP. pose proof (pay 0 (zlen data - i)) as P0.
  assert (K <= K * (post - i)) as P1 by (pose proof (pay 1 (post - i)); lia).
  destruct (map_loop _ _ _ _ _ _ _ _ _ _ _) as [[[key value] j']|e []| |] eqn:L; cbn [lift rbind]; try exact Logic.I; [|cbn [keeps]; lia].
  apply map_loop_num in L; [|assumption|assumption|destruct kk; try discriminate Nk; reflexivity|destruct vk; try discriminate Nv; reflexivity].
  cbn [fst snd] in L. destruct L as [Lk Lv].
  destruct (set_slot v1 (f_slot f) _) as [v2|] eqn:S2; [|exact Logic.I]. cbn [orpanic rbind].
  apply keeps_ok; [lia|]. pose proof (sum2_set (vmap old) key value) as M.
  destruct (get_set _ _ _ _ S1) as [G1|E1].
  - pose proof (cells_slot _ _ _ _ _ G1 S2) as C2. cbn [cells] in C2, C1, C0. lia.
  - subst v1. pose proof (cells_slot _ _ _ _ _ G S2) as C2. cbn [cells] in C2, C1, C0. lia.
Qed.

Lemma group_keeps f m wire data start : Z.land wire 7 <> 4 -> forall fuel i v, 
  match group_loop sc rec fuel f m wire data start i v with Ok _ => False | Err _ v' => v' = v | _ => True end.
Proof.
  intros H4. induction fuel as [|fuel IH]; intros i v; cbn [group_loop]; [exact Logic.I|].
  destruct (decodeVarint u64 0 data i) as [[w j]|e []| |]; cbn [lift rbind]; auto.
  replace (Z.land wire 7 =? 4) with false by lia.
  destruct (zslice data j (zlen data)); cbn [orpanic rbind]; auto. destruct (Skip l) as [n|e []| |]; cbn [lift rbind]; auto.
  destruct (_ || _); [reflexivity|apply IH].
Qed.

Lemma number_start_cells f lbl k data i v v' : number_start f lbl k data i v = Some v' -> cells v' <= cells v.
Proof. unfold number_start. destruct (in_place lbl k); [intros E; apply cells_set in E; cbn [cells] in E; lia|intros [= <-]; lia]. Qed.

Lemma item_keeps md f lbl k wire data i v : Z.land wire 7 <> 4 -> 0 <= i <= zlen data -> small data ->
  keeps data i v (fieldItem sc rec env md f lbl k wire data i v).
Proof.
  intros H4 Hi S. unfold fieldItem. pose proof rate_pos as RP.
  assert (forall b (mk : Z -> list Z -> val), (forall i s, cells (mk i s) <= 1 + zlen s) ->
    keeps data i v (do r <- lift v (decodeLen b data i); let (i, post) := r in do s <- orpanic (zslice data i post);
      do v' <- orpanic (store f lbl k (mk i s) v); Ok (v', post))) as Bytes.
  { intros b mk Hm. destruct (decodeLen b data i) as [[j post]|e []| |] eqn:E; cbn [lift rbind]; try exact Logic.I; [|apply keeps_err; lia].
    apply len_pos in E; [|lia|assumption]. destruct (zslice data j post) as [s|] eqn:Z; [|exact Logic.I]. cbn [orpanic rbind].
    destruct (slice_len _ _ _ _ Z) as (_ & _ & Ls). destruct (store f lbl k (mk j s) v) as [v'|] eqn:Es'; [|exact Logic.I]. cbn [orpanic rbind].
    apply cells_store in Es'. specialize (Hm j s). pose proof (pay1 (1 + zlen s)). pose proof (zlen_nonneg s). pose proof (pay (1 + zlen s) (post - i)). apply keeps_ok; lia. }
  assert (keeps data i v (do v <- orpanic (number_start f lbl k data i v); do r <- lift v (decodeNumber k 0 data i);
      do v' <- orpanic (store f lbl k (VInt (fst r)) v); Ok (v', snd r))) as Number.
  { destruct (number_start f lbl k data i v) as [v0|] eqn:E0; [|exact Logic.I]. cbn [orpanic rbind]. apply number_start_cells in E0. pose proof (pay 0 (zlen data - i)).
    destruct (decodeNumber k 0 data i) as [[z j]|e []| |] eqn:E; cbn [lift rbind fst snd]; try exact Logic.I; [|cbn [keeps]; lia].
    apply number_pos in E. destruct (store f lbl k (VInt z) v0) as [v'|] eqn:Es'; [|exact Logic.I]. cbn [orpanic rbind].
    apply cells_store in Es'. cbn [cells] in Es'. pose proof (pay 1 (j - i)). apply keeps_ok; lia. }
  destruct (classify k) eqn:C; try exact Number.
  - apply Bytes, Es.
  - apply Bytes, Eb.
  - now apply message_keeps.
  - pose proof (group_keeps f m wire data i H4 (Datatypes.S (length data)) i v) as G.
    destruct (group_loop _ _ _ _ _ _ _ _ _ _) as [[v' j]|e v'| |]; [contradiction|subst; apply keeps_err; lia|exact Logic.I|exact Logic.I].
Qed.

Lemma packed_keeps md f lbl k wire data post : Z.land wire 7 <> 4 -> small data -> forall fuel i v, 0 <= i <= zlen data ->
  keeps data i v (packed_loop sc rec env fuel md f lbl k wire data i post v).
Proof.
  intros H4 S. induction fuel as [|fuel IH]; intros i v Hi; cbn [packed_loop]; [exact Logic.I|].
  destruct (i <? post); [|apply keeps_ok; [lia|rewrite Z.sub_diag; lia]].
  pose proof (item_keeps md f lbl k wire data i v H4 Hi S) as KI.
  destruct (fieldItem sc rec env md f lbl k wire data i v) as [[v' j]|e v'| |]; cbn [rbind fst snd]; try exact KI.
  eapply keeps_trans; [exact KI|]. apply IH. cbn [keeps] in KI. lia.
Qed.

Lemma field_keeps m f wire data i v : In f (md_fields (md_of sc m)) -> Z.land wire 7 <> 4 -> 0 <= i <= zlen data -> small data ->
  keeps data i v (um_field sc rec env (md_of sc m) f wire data i v).
Proof.
  intros Hf H4 Hi S. unfold um_field. destruct (f_ty f) as [lbl k|kk vk] eqn:Ty.
  - assert (keeps data i v (if Z.land wire 7 =? ProtoWireType k then fieldItem sc rec env (md_of sc m) f lbl k wire data i v else Err EWireType v)) as One.
    { destruct (_ =? _); [now apply item_keeps|apply keeps_err; lia]. }
    destruct (packable lbl k); [|exact One]. destruct (_ =? _); [now apply item_keeps|]. destruct (_ =? 2); [|apply keeps_err; lia].
    destruct (decodeLen false data i) as [[j post]|e []| |] eqn:E; cbn [lift rbind]; try exact Logic.I; [|apply keeps_err; lia].
    apply len_pos in E; [|lia|assumption]. apply keeps_from with j; [lia|]. apply packed_keeps; auto. lia.
  - destruct (Nm m f kk vk Hf Ty) as [Nk Nv]. destruct (_ =? 2); [now apply map_keeps|apply keeps_err; lia].
Qed.

Lemma unknown_keeps m num data i v : 0 <= i <= zlen data -> keeps data i v (um_unknown sc m num data i v).
Proof.
  intros Hi. unfold um_unknown. destruct (zslice data i (zlen data)) as [rest|]; [|exact Logic.I]. cbn [orpanic rbind].
  destruct (Skip rest) as [n|e []| |]; cbn [lift rbind]; try exact Logic.I; [|apply keeps_err; lia].
  destruct (_ || _); [apply keeps_err; lia|]. destruct (_ <? _); [apply keeps_err; lia|].
  destruct (zslice data i (s64 (i + n))) as [raw|] eqn:Z; [|exact Logic.I]. cbn [orpanic rbind].
  destruct (slice_len _ _ _ _ Z) as (P1 & P2 & Lr). pose proof (cells_pos v). pose proof (pay 0 (s64 (i + n) - i)).
  destruct (in_ext (md_of sc m) num).
  - destruct v; try exact Logic.I. destruct (up_ext (sc_up sc) m raw) as [v'|] eqn:E; [|apply keeps_err; lia].
    pose proof (rate_ext sc K Rt _ _ _ E) as D. rewrite Lr in D. apply keeps_ok; lia.
  - destruct (md_keep (md_of sc m)); [|apply keeps_ok; lia]. destruct (add_unknown v raw) as [v'|] eqn:E; [|exact Logic.I]. cbn [orpanic rbind].
    apply keeps_ok; [lia|]. pose proof (pay1 (s64 (i + n) - i)). destruct v; try discriminate. cbn [add_unknown] in E. injection E as <-. cbn [cells]. rewrite zlen_app. lia.
Qed.

Lemma loop_keeps m data : small data -> forall fuel i v has, 0 <= i <= zlen data ->
  match um_loop sc rec env fuel m data i v has with
  | Ok (v', j, _) => cells v' <= cells v + K * (zlen data - i)
  | Err _ v' => cells v' <= cells v + K * (zlen data - i)
  | _ => True
  end.
Proof.
  intros S. induction fuel as [|fuel IH]; intros i v has Hi; cbn [um_loop]; [exact Logic.I|].
  destruct (i <? zlen data) eqn:L; [|pose proof (pay 0 (zlen data - i)); lia].
  unfold um_step. destruct (decodeVarint u64 0 data i) as [[w j]|e []| |] eqn:E; cbn [lift rbind]; try exact Logic.I; [|apply (keeps_err data i v e); lia].
  apply varint_pos in E. destruct (Z.land w 7 =? 4) eqn:W4; [apply (keeps_err data i v EWireType); lia|].
  destruct (_ <=? 0); [apply (keeps_err data i v EIllegalTag); lia|].
  destruct (find_field _ _) as [f|] eqn:F.
  - apply find_some in F as [Hf _]. pose proof (field_keeps m f w data j v Hf ltac:(lia) ltac:(lia) S) as KF. apply (keeps_from data i j) in KF; [|lia].
    destruct (um_field _ _ _ _ _ _ _ _ _) as [[v' j']|e v'| |]; cbn [rbind fst snd]; try exact KF. cbn [keeps] in KF.
    specialize (IH j' v' (has_set (md_of sc m) f has) ltac:(lia)). destruct (um_loop _ _ _ _ _ _ _ _ _) as [[[v'' j'']]|e v''| |]; try exact Logic.I; lia.
  - pose proof (unknown_keeps m (s32 (Z.shiftr w 3)) data i v Hi) as KF.
    destruct (um_unknown _ _ _ _ _ _) as [[v' j']|e v'| |]; cbn [rbind fst snd]; try exact KF. cbn [keeps] in KF.
    specialize (IH j' v' has ltac:(lia)). destruct (um_loop _ _ _ _ _ _ _ _ _) as [[[v'' j'']]|e v''| |]; try exact Logic.I; lia.
Qed.

Lemma body_under m data v : small data -> under (um_body sc rec env m data v) (cells v + K * zlen data).
Proof.
  intros S. unfold um_body. pose proof (zlen_nonneg data). pose proof (loop_keeps m data S (Datatypes.S (length data)) 0 v (has_init (md_of sc m)) ltac:(lia)) as L.
  rewrite Z.sub_0_r in L. destruct (um_loop _ _ _ _ _ _ _ _ _) as [[[v' j] has]|e v'| |]; cbn [rbind under]; try exact L.
  destruct (negb _); [exact L|]. destruct (_ <? _); exact L.
Qed.
End Bound.

Lemma um_under sc K : rate sc K -> number_maps sc -> forall n m data v, small data -> under (um_msg sc n m data v) (cells v + K * zlen data).
Proof.
  intros Rt Nm. induction n as [|n IH]; intros m data v S; cbn [um_msg]; [exact Logic.I|].
  apply body_under; auto; intros; cbn [safe_env ue_alloc ue_str ue_bytes cells]; try lia. rewrite cells_new. lia.
Qed.
Lemma unsafe_under sc K al : rate sc K -> number_maps sc -> (forall p m, cells (al p m) <= 1 + Z.of_nat (md_nslots (md_of sc m))) ->
  forall n path base m data v, small data -> under (um_unsafe sc al n path base m data v) (cells v + K * zlen data).
Proof.
  intros Rt Nm Ha. induction n as [|n IH]; intros path base m data v S; cbn [um_unsafe]; [exact Logic.I|].
  apply body_under; auto; intros; cbn [unsafe_env ue_alloc ue_str ue_bytes cells]; auto.
  - destruct s; cbn [cells]; [change (zlen []) with 0; lia|pose proof (zlen_nonneg (z :: s)); lia].
  - pose proof (zlen_nonneg s). lia.
Qed.

(** * Conforming input, whatever the maps hold *)
Section Conform.
Variable sc : schema.
Variable K : Z.
Hypothesis Rt : rate sc K.

Lemma sum_put s i x : sum (put s i x) + cells (slot s i) <= sum s + cells x + 1.
Proof.
  unfold put. destruct (Nat.lt_ge_cases i (length s)) as [L|L].
  - fold (put s i x). rewrite <- list_set_put by assumption. pose proof (sum_set s i x). lia.
  - rewrite firstn_all2, skipn_all2 by lia. rewrite sum_app. cbn [fold_right]. unfold slot. rewrite nth_overflow by assumption. cbn [cells]. lia.
Qed.
Lemma cells_put s i x u h : cells (VMsg (put s i x) u h) + cells (slot s i) <= cells (VMsg s u h) + cells x + 1.
Proof. cbn [cells]. pose proof (sum_put s i x). lia. Qed.
Lemma cells_append old xs : cells (append old xs) <= cells old + sum xs.
Proof. destruct xs; [cbn; lia|]. cbn [append]. apply cells_vlist. Qed.
Lemma sum2_app a b : sum2 (a ++ b) = sum2 a + sum2 b.
Proof. induction a as [|x a IH]; cbn [fold_right app]; lia. Qed.
Lemma sum2_put l k x l' : map_put l k x l' -> sum2 l' <= sum2 l + cells k + cells x.
Proof.
  intros [l0 k0 x0 _|l1 l2 k0 y x0]; rewrite !sum2_app; cbn [fold_right fst snd]; [lia|]. pose proof (cells_pos y). pose proof (cells_pos k0). lia.
Qed.
Lemma zlen_ne {A} (l : list A) : l <> [] -> 1 <= zlen l.
Proof. destruct l; [contradiction|]. rewrite zlen_cons. pose proof (zlen_nonneg l). lia. Qed.
Lemma cells_ints zs : sum (map VInt zs) = zlen zs.
Proof. induction zs as [|z zs IH]; cbn [map fold_right cells]; [reflexivity|]. rewrite zlen_cons. lia. Qed.

Definition Cvalue (k : kind) (old : val) (b : list Z) (x : val) : Prop :=
  1 <= zlen b /\ (cells x <= K * zlen b \/ cells x <= cells old + K * (zlen b - 1)).
Definition Cdec (m : nat) (q : list Z) (old x : val) : Prop :=
  (md_foreign (md_of sc m) = false /\ cells x <= cells old + K * zlen q) \/ cells x <= K * (1 + zlen q).
Definition Cfields (m : nat) (bs : list Z) (v v' : val) (nums : list Z) : Prop := cells v' <= cells v + K * zlen bs.
Definition Crecord (m : nat) (num : Z) (c : list Z) (v v' : val) : Prop := cells v' <= cells v + K * zlen c.
Definition opt_cells (o : option val) : Z := match o with Some x => cells x | None => 0 end.
Definition Centry (kk vk : kind) (b : list Z) (ko vo : option val) : Prop := opt_cells ko + opt_cells vo <= K * zlen b.

Lemma value_cost k old b x : cells old < K -> Cvalue k old b x -> cells x <= K * zlen b.
Proof. intros H [L [A|A]]; [assumption|]. rewrite Z.mul_sub_distr_l in A. lia. Qed.
Lemma fresh_cells k : cells (fresh sc k) < K.
Proof. pose proof (rate_pos sc K Rt). destruct k; cbn [fresh cells]; try lia. rewrite cells_new. pose proof (rate_new sc K Rt m). lia. Qed.
Lemma default_cells k : cells (entry_default k) = 1.
Proof. destruct k; reflexivity. Qed.

Lemma conform_cost :
  (forall k old b x, dec_value sc k old b x -> Cvalue k old b x) /\
  (forall m q old x, decodes sc m q old x -> Cdec m q old x) /\
  (forall m bs v v' nums, dec_fields sc m bs v v' nums -> Cfields m bs v v' nums) /\
  (forall m num c v v', dec_record sc m num c v v' -> Crecord m num c v v') /\
  (forall kk vk b ko vo, dec_entry sc kk vk b ko vo -> Centry kk vk b ko vo).
Proof.
  pose proof (rate_pos sc K Rt) as RP.
  apply (dec_mut sc Cvalue Cdec Cfields Crecord Centry); unfold Cvalue, Cfields, Crecord, Centry.
  - intros k old bs z H. pose proof (zlen_ne bs (num_wire_ne _ _ _ H)). split; [assumption|]. left. cbn [cells]. pose proof (pay1 sc K Rt (zlen bs)). lia.
  - intros old l q H. pose proof (zlen_ne l (is_len_ne _ _ H)). pose proof (zlen_nonneg q). rewrite zlen_app. split; [lia|]. left. cbn [cells]. pose proof (pay1 sc K Rt (zlen l + zlen q)). lia.
  - intros old l q H. pose proof (zlen_ne l (is_len_ne _ _ H)). pose proof (zlen_nonneg q). rewrite zlen_app. split; [lia|]. left. cbn [cells]. pose proof (pay1 sc K Rt (zlen l + zlen q)). lia.
  - intros m old l q x H _ IH. pose proof (zlen_ne l (is_len_ne _ _ H)). pose proof (zlen_nonneg q). rewrite zlen_app. split; [lia|].
    destruct IH as [[_ IH]|IH].
    + right. pose proof (pay sc K Rt (zlen q) (zlen l + zlen q - 1)). lia.
    + left. pose proof (pay sc K Rt (1 + zlen q) (zlen l + zlen q)). lia.
  - intros m bs v v' nums F _ IH _. left. auto.
  - intros m bs v' F E. right. eapply rate_dec; eauto.
  - intros m v. change (zlen []) with 0. lia.
  - intros m num c bs v v1 v' nums _ IH1 _ IH2. rewrite zlen_app, Z.mul_add_distr_l. lia.
  - (* implicit *) intros m f k t b x s u h _ _ Ht _ IH. pose proof (zlen_ne t (is_tag_ne _ _ _ Ht)). apply (value_cost k VNil) in IH; [|cbn [cells]; lia].
    pose proof (cells_put s (f_slot f) x u h). pose proof (cells_pos (slot s (f_slot f))). rewrite zlen_app, Z.mul_add_distr_l. pose proof (pay sc K Rt 1 (zlen t)). lia.
  - (* present *) intros m f lb k t b x s u h _ _ _ Ht _ IH. pose proof (zlen_ne t (is_tag_ne _ _ _ Ht)). rewrite zlen_app, Z.mul_add_distr_l. pose proof (pay sc K Rt 1 (zlen t)).
    pose proof (cells_put s (f_slot f) (boxed k x) u h) as P. set (old := slot s (f_slot f)) in *. pose proof (cells_pos old).
    assert (cells (boxed k x) <= 1 + cells x) as B1 by (unfold boxed; destruct (is_num k); [cbn [cells]; lia|destruct k; cbn [cells]; lia]).
    destruct (is_nil old) eqn:En.
    + replace (merge_into sc k old) with (fresh sc k) in IH by (destruct old; try discriminate En; reflexivity). apply (value_cost k (fresh sc k)) in IH; [|apply fresh_cells]. lia.
    + replace (merge_into sc k old) with old in IH by (destruct old; try discriminate En; reflexivity). destruct IH as [L [A|A]]; [lia|]. rewrite Z.mul_sub_distr_l in A. lia.
  - (* oneof *) intros m f k t b x s u h _ _ Ht _ IH. pose proof (zlen_ne t (is_tag_ne _ _ _ Ht)). rewrite zlen_app, Z.mul_add_distr_l. pose proof (pay sc K Rt 1 (zlen t)).
    pose proof (cells_put s (f_slot f) (VOneof (f_num f) x) u h) as P. set (old := slot s (f_slot f)) in *. pose proof (cells_pos old). rewrite (eq_refl : cells (VOneof (f_num f) x) = 1 + cells x) in P.
    assert (cells (merge_oneof sc k (f_num f) old) < K \/ cells (merge_oneof sc k (f_num f) old) < cells old) as [M|M].
    { pose proof (fresh_cells k). destruct old as [| | | | | | |n y| | |]; try (left; assumption). cbn [merge_oneof]. destruct (n =? f_num f); [right; cbn [cells]; lia|left; assumption]. }
    + apply (value_cost k (merge_oneof sc k (f_num f) old)) in IH; [|assumption]. lia.
    + destruct IH as [L [A|A]]; [lia|]. rewrite Z.mul_sub_distr_l in A. lia.
  - (* repeated *) intros m f p k t b x s u h _ _ Ht _ IH _. pose proof (zlen_ne t (is_tag_ne _ _ _ Ht)). rewrite zlen_app, Z.mul_add_distr_l. pose proof (pay sc K Rt 1 (zlen t)).
    pose proof (cells_put s (f_slot f) (append (slot s (f_slot f)) [x]) u h) as P. pose proof (cells_append (slot s (f_slot f)) [x]) as A. cbn [fold_right] in A.
    apply (value_cost k (fresh sc k)) in IH; [|apply fresh_cells]. lia.
  - (* packed *) intros m f p k t l bs zs s u h _ _ _ Ht Hl F. pose proof (zlen_ne t (is_tag_ne _ _ _ Ht)). rewrite !zlen_app, !Z.mul_add_distr_l. pose proof (pay sc K Rt 1 (zlen t)).
    pose proof (pay sc K Rt 0 (zlen l)). pose proof (zlen_nonneg l).
    pose proof (cells_put s (f_slot f) (append (slot s (f_slot f)) (map VInt zs)) u h) as P. pose proof (cells_append (slot s (f_slot f)) (map VInt zs)) as A. rewrite cells_ints in A.
    assert (zlen zs <= zlen (concat bs)) as Z.
    { clear -F. induction F as [|b z bs zs H F IH]; [cbn; lia|]. cbn [concat]. rewrite zlen_cons, zlen_app. pose proof (zlen_ne b (num_wire_ne _ _ _ H)). lia. }
    pose proof (pay1 sc K Rt (zlen (concat bs)) (zlen_nonneg _)). lia.
  - (* map *) intros m f kk vk t l b k x l' s u h _ _ Ht Hl _ IH MP. pose proof (zlen_ne t (is_tag_ne _ _ _ Ht)). pose proof (zlen_ne l (is_len_ne _ _ Hl)).
    rewrite !zlen_app, !Z.mul_add_distr_l. pose proof (pay sc K Rt 1 (zlen t)). pose proof (pay sc K Rt 1 (zlen l)).
    pose proof (cells_put s (f_slot f) (VMap l') u h) as P. apply sum2_put in MP. pose proof (cells_vmap (slot s (f_slot f))) as C. cbn [cells] in C. rewrite (eq_refl : cells (VMap l') = 1 + sum2 l') in P.
    destruct k as [k|], x as [x|]; cbn [opt_cells] in IH; rewrite ?default_cells in MP; lia.
  - (* unknown *) intros m num wt c s u h _ _. cbn [cells]. pose proof (pay1 sc K Rt (zlen c) (zlen_nonneg c)). pose proof (zlen_nonneg c). destruct (md_keep (md_of sc m)); rewrite ?zlen_app; lia.
  - intros kk vk. cbn. lia.
  - intros kk vk t b bs k x Ht _ IHv _ IHe. rewrite !zlen_app, !Z.mul_add_distr_l. apply (value_cost kk VNil) in IHv; [|cbn [cells]; lia]. cbn [opt_cells] in *.
    pose proof (pay sc K Rt 0 (zlen t) (zlen_nonneg t)). lia.
  - intros kk vk t b bs k x Ht _ IHv _ IHe. rewrite !zlen_app, !Z.mul_add_distr_l. apply (value_cost vk (fresh sc vk)) in IHv; [|apply fresh_cells]. cbn [opt_cells] in *.
    pose proof (pay sc K Rt 0 (zlen t) (zlen_nonneg t)). lia.
  - intros kk vk num wt c bs k x _ _ _ IH. rewrite zlen_app, Z.mul_add_distr_l. pose proof (pay sc K Rt 0 (zlen c) (zlen_nonneg c)). lia.
Qed.
End Conform.
