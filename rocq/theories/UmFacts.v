(** UnmarshalVT on arbitrary input: totality, typing, and independence from the
    bytes around the input. *)
From Coq Require Import ZArith List Bool Lia.
From Verif Require Import Base BaseFacts Schema Value Helpers Unmarshal WireSpec Typing RecordSpec MsgSpec
  VarintFacts SkipFacts NumFacts ViewFacts TargetFacts.
Import ListNotations.
Open Scope Z_scope.

(** Outcomes of two calls that differ at most in which error they report. *)
Definition agree {A} (Q : A -> Prop) (r r' : res A A) : Prop :=
  (exists a, r = Ok a /\ r' = Ok a /\ Q a) \/ (exists e e' a, r = Err e a /\ r' = Err e' a /\ Q a).

(** Skip's result is an int. *)
Lemma read_varint_le fuel w data : forall i sh acc r, read_varint fuel w data i sh acc = Ok r -> snd r <= zlen data.
Proof.
  induction fuel as [|fuel IH]; intros i sh acc r H; cbn [read_varint] in H; [discriminate|].
  destruct (64 <=? sh); [discriminate|]. destruct (zlen data <=? i) eqn:E; [discriminate|].
  destruct (zget data i); [|discriminate]. cbn [orpanic rbind] in H. cbv zeta in H.
  destruct (z <? 128); [injection H as <-; cbn; lia|eauto].
Qed.

Lemma skip_loop_int fuel data : small data -> forall i depth n, skip_loop fuel data i depth = Ok n ->
  n < 9223372036854775808.
Proof.
  intros S. unfold small in S. induction fuel as [|fuel IH]; intros i depth n H; cbn [skip_loop] in H; [discriminate|].
  destruct (zlen data <=? i); [discriminate|].
  destruct (read_varint 11 u64 data i 0 0) as [[wire i1]| | |] eqn:R; try discriminate. cbn [rbind] in H.
  destruct (skip_value data (Z.land wire 7) i1 depth) as [[i2 d2]| | |] eqn:V; try discriminate. cbn [rbind] in H.
  destruct (i2 <? 0); [discriminate|]. destruct (d2 =? 0); [|eauto]. injection H as <-.
  apply read_varint_le in R. cbn [snd] in R.
  unfold skip_value in V.
  assert (forall z, s64 z < 9223372036854775808) as I by (intros z; apply s64_range).
  destruct (Z.land wire 7) as [|[[[]|[]|]|[[]|[]|]|]|]; try discriminate V.
  - rewrite skip_varint_read in V. destruct (read_varint 11 u64 data i1 0 0) as [[x j]| | |] eqn:R2; try discriminate.
    cbn [rbind] in V. apply read_varint_le in R2. cbn [snd] in *. injection V as <- _. lia.
  - injection V as <- _. apply I.
  - injection V as <- _. lia.
  - destruct (depth =? 0); [discriminate|]. injection V as <- _. lia.
  - destruct (read_varint 11 s64 data i1 0 0) as [[x j]| | |]; try discriminate. cbn [rbind] in V.
    destruct (x <? 0); [discriminate|]. injection V as <- _. apply I.
  - injection V as <- _. apply I.
Qed.

Lemma Skip_int data n : small data -> Skip data = Ok n -> n < 9223372036854775808.
Proof. intros S. now apply skip_loop_int. Qed.

(** The statements around Skip, shared by the map loop and the message loop. *)
Lemma Skip_step data data' i i' rest s' : view data data' i i' rest s' ->
  (exists r s num wt, rest = r ++ s /\ record false num wt r /\ r <> [] /\
     Skip rest = Ok (zlen r) /\ Skip (rest ++ s') = Ok (zlen r) /\
     s64 (i + zlen r) = i + zlen r /\ s64 (i' + zlen r) = i' + zlen r /\ 0 <= i /\ 0 <= i') \/
  (exists n, Skip rest = Ok n /\ 0 < n /\ zlen rest < n /\
     (s64 (i + n) < 0 \/ zlen data < s64 (i + n)) /\
     (s' = [] -> s64 (i' + n) < 0 \/ zlen data' < s64 (i' + n))) \/
  (exists e, Skip rest = Err e tt).
Proof.
  intros ((p & -> & ->) & (p' & -> & ->) & B & S & S').
  assert (small rest) as S1 by (unfold small in *; rewrite zlen_app in S; pose proof (zlen_nonneg p); lia).
  assert (small (rest ++ s')) as S2 by (unfold small in *; rewrite zlen_app in S'; pose proof (zlen_nonneg p'); lia).
  destruct (Skip_total rest B S1) as [(n & E & Hn)|(e & E)]; [|eauto].
  pose proof (zlen_nonneg p). pose proof (zlen_nonneg p'). pose proof (zlen_nonneg s'). pose proof (zlen_nonneg rest).
  destruct (Z_le_dec n (zlen rest)) as [L|L].
  - left. destruct (Skip_sound rest n B S1 E L) as (r & s & num & wt & -> & -> & R).
    exists r, s, num, wt. split; [reflexivity|]. split; [assumption|]. split.
    { intros ->. change (zlen (@nil Z)) with 0 in Hn. lia. }
    split; [assumption|]. split; [apply Skip_app; auto|].
    unfold small in *. rewrite !zlen_app in *. pose proof (zlen_nonneg s).
    repeat split; try apply s64_id; lia.
  - right. left. exists n. pose proof (Skip_int _ _ S1 E). unfold small in *. rewrite !zlen_app in *.
    repeat split; auto; try lia.
    + destruct (s64_sum_cases (zlen p) n); lia.
    + intros ->. destruct (s64_sum_cases (zlen p') n); [lia|lia| |lia]. cbn [app]. change (zlen (@nil Z)) with 0 in *. lia.
Qed.

(** Map keys. *)
Lemma key_kind_num k : key_kind k = true -> is_num k = true \/ k = KString.
Proof. destruct k; cbn; auto; discriminate. Qed.
Lemma wt_key sc k v : key_kind k = true -> wt_elem sc k v -> (exists z, v = VInt z) \/ (exists s, v = VStr s).
Proof.
  intros K H. inversion H; subst; eauto; try discriminate; destruct k; discriminate.
Qed.
Lemma wt_string sc v : wt_elem sc KString v -> exists s, v = VStr s /\ bytes_ok s = true.
Proof. intros H. inversion H; subst; eauto; discriminate. Qed.
Lemma wt_byteselem sc v : wt_elem sc KBytes v -> v = VNil \/ exists s, v = VBytes s /\ bytes_ok s = true.
Proof. intros H. inversion H; subst; eauto; discriminate. Qed.
Lemma key_eqb_iff sc k a b : key_kind k = true -> wt_elem sc k a -> wt_elem sc k b ->
  (key_eqb a b = true <-> a = b).
Proof.
  intros K Ha Hb. destruct (wt_key sc k a K Ha) as [(x & ->)|(x & ->)], (wt_key sc k b K Hb) as [(y & ->)|(y & ->)]; cbn.
  - split; [intros E; f_equal; lia|intros [= ->]; lia].
  - split; discriminate.
  - split; discriminate.
  - destruct (list_eq_dec Z.eq_dec x y); split; congruence.
Qed.

Lemma map_set_in l k v e : In e (map_set l k v) -> In e l \/ snd e = v /\ (fst e = k \/ In (fst e) (map fst l)).
Proof.
  induction l as [|[k' v'] l IH]; cbn [map_set].
  - intros [<-|[]]. auto.
  - destruct (key_eqb k k'); intros [<-|H]; cbn; auto. destruct (IH H) as [|[]]; tauto.
Qed.
Lemma map_set_fst sc kk l k v : key_kind kk = true -> wt_elem sc kk k -> (forall e, In e l -> wt_elem sc kk (fst e)) ->
  map fst (map_set l k v) = if existsb (key_eqb k) (map fst l) then map fst l else map fst l ++ [k].
Proof.
  intros K Hk. induction l as [|[k' v'] l IH]; intros H; cbn; [reflexivity|].
  destruct (key_eqb k k') eqn:E; cbn; [reflexivity|].
  rewrite IH by (intros; apply H; now right). destruct (existsb _ _); reflexivity.
Qed.

Lemma wt_map_set sc md f kk vk l k v : f_ty f = TMap kk vk -> key_kind kk = true ->
  wt_field sc md f (VMap l) -> wt_elem sc kk k -> wt_elem sc vk v -> wt_field sc md f (VMap (map_set l k v)).
Proof.
  intros T K H Hk Hv. apply wt_field_inv in H. rewrite T in H.
  destruct H as [H|(l0 & E & H1 & H2 & H3)]; [discriminate|]. injection E as <-.
  eapply wt_map; eauto.
  - intros e He. apply map_set_in in He as [He|(E1 & [E2|E2])]; auto.
    + now rewrite E2.
    + apply in_map_iff in E2 as (e0 & <- & He0). auto.
  - intros e He. apply map_set_in in He as [He|(E1 & _)]; auto. now rewrite E1.
  - rewrite (map_set_fst sc kk) by assumption. destruct (existsb _ _) eqn:E; [assumption|].
    assert (~ In k (map fst l)) as N.
    { intros Hi. assert (existsb (key_eqb k) (map fst l) = true); [|congruence].
      apply existsb_exists. exists k. split; [assumption|]. now apply (key_eqb_iff sc kk). }
    clear -H3 N. induction (map fst l) as [|a q IH]; cbn; [constructor; [intros []|constructor]|].
    inversion H3; subst. constructor.
    + rewrite in_app_iff. intros [|[|[]]]; [contradiction|]. subst. apply N. now left.
    + apply IH; auto. intros Hi. apply N. now right.
Qed.

Lemma map_zero_wt sc k : is_group k = false -> wt_elem sc k (map_zero k).
Proof.
  intros G. destruct k; try discriminate G; unfold map_zero; cbn [classify]; try (now constructor).
  now eapply wt_nilsub.
Qed.

Section Step.
Variable sc : schema.
Hypothesis W : wf_schema sc = true.
Hypothesis U : up_dec_ok sc.
Variable N : nat.
Variables rec rec' : nat -> list Z -> val -> res val val.
Hypothesis Hrec : forall m buf v, (length buf < N)%nat -> bytes_ok buf = true -> small buf -> target sc m v ->
  agree (target sc m) (rec m buf v) (rec' m buf v).

Notation env := (safe_env sc).
Notation r1 := (fun _ : Z => rec).
Notation r2 := (fun _ : Z => rec').

Lemma decodeMessage_ok i i' m buf v : (length buf < N)%nat -> bytes_ok buf = true -> small buf -> target sc m v ->
  agree (target sc m) (decodeMessage sc r1 i m buf v) (decodeMessage sc r2 i' m buf v).
Proof.
  intros L B S T. unfold decodeMessage. destruct (md_foreign (md_of sc m)) eqn:F; [|now apply Hrec].
  destruct (target_vmsg _ _ _ T) as (s & u & h & ->).
  destruct (up_dec (sc_up sc) m buf) eqn:E.
  - left. eexists. split; [reflexivity|]. split; [reflexivity|]. eapply up_dec_wt; eauto.
  - right. eauto 7.
Qed.

Lemma payload_len (l q s rest : list Z) : rest = l ++ q ++ s -> l <> [] -> (length rest <= N)%nat -> (length q < N)%nat.
Proof. intros -> L H. rewrite !app_length in H. destruct l; [contradiction|]. cbn in H. lia. Qed.

Lemma view_payload data data' i i' l q s s' : view data data' i i' (l ++ q ++ s) s' ->
  bytes_ok q = true /\ small q.
Proof.
  intros ((p & -> & ->) & _ & B & S & _). rewrite !bytes_ok_app in B. rewrite !andb_true_iff in B.
  unfold small in *. rewrite !zlen_app in S. pose proof (zlen_nonneg p). pose proof (zlen_nonneg l).
  pose proof (zlen_nonneg s). split; [tauto|lia].
Qed.

Lemma mapField_par k cur data data' i i' rest s' : view data data' i i' rest s' -> (length rest <= N)%nat ->
  is_group k = false -> wt_elem sc k cur ->
  par i i' rest s' (wt_elem sc k) any
    (mapField sc r1 env k cur data i) (mapField sc r2 env k cur data' i').
Proof.
  intros V Ln G Hc. unfold mapField.
  assert (forall b (kk kk' : Z -> Z -> res unit (val * Z)),
    (forall l q s, rest = l ++ q ++ s -> l <> [] -> is_len l (zlen q) ->
      zslice data (i + zlen l) (i + zlen l + zlen q) = Some q ->
      zslice data' (i' + zlen l) (i' + zlen l + zlen q) = Some q ->
     (exists a, kk (i + zlen l) (i + zlen l + zlen q) = Ok (a, i + zlen l + zlen q) /\
                kk' (i' + zlen l) (i' + zlen l + zlen q) = Ok (a, i' + zlen l + zlen q) /\ wt_elem sc k a) \/
     (exists e e', kk (i + zlen l) (i + zlen l + zlen q) = Err e tt /\ kk' (i' + zlen l) (i' + zlen l + zlen q) = Err e' tt)) ->
    par i i' rest s' (wt_elem sc k) any (do r <- decodeLen b data i; let (i, post) := r in kk i post)
       (do r <- decodeLen b data' i'; let (i, post) := r in kk' i post)) as D.
  { intros b kk kk' K.
    destruct (decodeLen_view b _ _ _ _ _ _ V) as [(l & q & s & Er & Nl & L & -> & -> & Z1 & Z2)|(e & -> & X)]; cbn [rbind].
    - destruct (K l q s Er Nl L Z1 Z2) as [(a & -> & -> & Ha)|(e & e' & -> & ->)].
      + left. exists (l ++ q), s, a. rewrite zlen_app, !Z.add_assoc, <- app_assoc. repeat split; auto.
        destruct l; [contradiction|discriminate].
      + right. exists e, tt. repeat split. eauto.
    - right. exists e, tt. repeat split. intros Z. destruct (X Z) as [e' ->]. exists e'. reflexivity. }
  assert (is_num k = true ->
    par i i' rest s' (wt_elem sc k) any
      (do r <- decodeNumber k (vint cur) data i; Ok (VInt (fst r), snd r))
      (do r <- decodeNumber k (vint cur) data' i'; Ok (VInt (fst r), snd r))) as M.
  { intros Nk. destruct (wt_elem_num sc k cur Nk Hc) as (z & -> & Rk). cbn [vint]. eapply par_last; [apply decodeNumber_par; eassumption|].
    intros c s a _ _ Ha. left. eexists. split; [reflexivity|]. split; [reflexivity|]. now constructor. }
  destruct k as [| | | | | | | | | |mm| | | | | | |]; try discriminate G; cbn [classify];
    try (apply M; reflexivity).
  - (* string *) apply D. intros l q s Er Nl L Z1 Z2. left. exists (VStr q). rewrite Z1, Z2. cbn [orpanic rbind].
    repeat split. constructor. subst rest. eapply view_payload; eauto.
  - (* message *) apply D. intros l q s Er Nl L Z1 Z2. rewrite Z1, Z2. cbn [orpanic rbind].
    pose proof (payload_len l q s rest Er Nl Ln) as Lq. subst rest. destruct (view_payload _ _ _ _ _ _ _ _ V) as [Bq Sq].
    destruct (decodeMessage_ok (i + zlen l) (i' + zlen l) mm q (new_msg (md_of sc mm)) Lq Bq Sq (target_new sc W mm))
      as [(v' & -> & -> & T)|(e & e' & v' & -> & -> & T)]; cbn [drop_state rbind].
    + left. exists v'. repeat split. eapply wt_sub; [reflexivity|apply T].
    + right. eauto.
  - (* bytes *) apply D. intros l q s Er Nl L Z1 Z2. left. exists (VBytes q). rewrite Z1, Z2. cbn [orpanic rbind].
    repeat split. constructor. subst rest. eapply view_payload; eauto.
Qed.

Lemma map_loop_par kk vk : key_kind kk = true -> is_group vk = false ->
  forall fuel fuel' data data' i i' rest s' d key value,
  view data data' i i' rest s' -> (length rest <= N)%nat -> d <= zlen rest ->
  (length rest < fuel)%nat -> (length rest < fuel')%nat -> wt_elem sc kk key -> wt_elem sc vk value ->
  (exists key' value' j j',
     map_loop sc r1 env fuel kk vk data i (i + d) key value = Ok (key', value', j) /\
     map_loop sc r2 env fuel' kk vk data' i' (i' + d) key value = Ok (key', value', j') /\
     wt_elem sc kk key' /\ wt_elem sc vk value') \/
  (exists e, map_loop sc r1 env fuel kk vk data i (i + d) key value = Err e tt /\
     (s' = [] -> exists e', map_loop sc r2 env fuel' kk vk data' i' (i' + d) key value = Err e' tt)).
Proof.
  intros Kk Gv. induction fuel as [|fuel IH]; intros fuel' data data' i i' rest s' d key value V Ln Hd F F' Hk Hv; [lia|].
  destruct fuel' as [|fuel']; [lia|]. cbn [map_loop].
  assert (is_group kk = false) as Gk by (destruct kk; try discriminate Kk; reflexivity).
  destruct (Z_lt_dec 0 d) as [D|D].
  2:{ replace (i <? i + d) with false by lia. replace (i' <? i' + d) with false by lia. left.
      exists key, value, i, i'. auto. }
  replace (i <? i + d) with true by lia. replace (i' <? i' + d) with true by lia. cbv zeta.
  destruct (decodeVarint_par u64 0 _ _ _ _ _ _ conv_u64 V) as [(c & s & wire & Er & Nc & -> & -> & _)|(e & [] & -> & _ & X)].
  2:{ right. exists e. split; [reflexivity|]. intros Z. destruct (X Z) as [e' ->]. exists e'. reflexivity. }
  cbn [rbind]. pose proof V as V0. subst rest. apply view_adv in V. rewrite app_length in *.
  assert (length c <> 0)%nat as Lc by (destruct c; [contradiction|discriminate]). rewrite zlen_app in Hd.
  assert (forall k cur (K K' : val -> Z -> res unit (val * val * Z)), is_group k = false -> wt_elem sc k cur ->
    (forall c2 s2 x, s = c2 ++ s2 -> c2 <> [] -> wt_elem sc k x ->
      (exists key' value' j j', K x (i + zlen c + zlen c2) = Ok (key', value', j) /\
         K' x (i' + zlen c + zlen c2) = Ok (key', value', j') /\ wt_elem sc kk key' /\ wt_elem sc vk value') \/
      (exists e, K x (i + zlen c + zlen c2) = Err e tt /\
         (s' = [] -> exists e', K' x (i' + zlen c + zlen c2) = Err e' tt))) ->
    (exists key' value' j j',
      (do r <- mapField sc r1 env k cur data (i + zlen c); K (fst r) (snd r)) = Ok (key', value', j) /\
      (do r <- mapField sc r2 env k cur data' (i' + zlen c); K' (fst r) (snd r)) = Ok (key', value', j') /\
      wt_elem sc kk key' /\ wt_elem sc vk value') \/
    (exists e, (do r <- mapField sc r1 env k cur data (i + zlen c); K (fst r) (snd r)) = Err e tt /\
       (s' = [] -> exists e', (do r <- mapField sc r2 env k cur data' (i' + zlen c); K' (fst r) (snd r)) = Err e' tt))) as MF.
  { intros k cur K K' G Hc HK. destruct (mapField_par k cur _ _ _ _ _ _ V ltac:(lia) G Hc)
      as [(c2 & s2 & x & Es & N2 & -> & -> & Hx)|(e & [] & -> & _ & X)].
    - cbn [rbind fst snd]. now apply (HK c2 s2 x).
    - right. exists e. split; [reflexivity|]. intros Z. destruct (X Z) as [e' ->]. exists e'. reflexivity. }
  assert (forall c2 s2, s = c2 ++ s2 -> c2 <> [] ->
    view data data' (i + zlen c + zlen c2) (i' + zlen c + zlen c2) s2 s' /\
    (length s2 < fuel)%nat /\ (length s2 < fuel')%nat /\ (length s2 <= N)%nat /\
    d - zlen c - zlen c2 <= zlen s2 /\
    i + d = i + zlen c + zlen c2 + (d - zlen c - zlen c2) /\
    i' + d = i' + zlen c + zlen c2 + (d - zlen c - zlen c2)) as ADV.
  { intros c2 s2 Es N2. assert (length c2 <> 0)%nat by (destruct c2; [contradiction|discriminate]).
    subst s. rewrite app_length in *. rewrite zlen_app in Hd.
    split; [now apply view_adv|]. repeat split; lia. }
  destruct (s32 (Z.shiftr wire 3) =? 1).
  { apply (MF kk key (fun x j => map_loop sc r1 env fuel kk vk data j (i + d) x value)
      (fun x j => map_loop sc r2 env fuel' kk vk data' j (i' + d) x value)); auto. intros c2 s2 x Es N2 Hx. destruct (ADV c2 s2 Es N2) as (V2 & A1 & A2 & A3 & A4 & -> & ->).
    eapply IH; eauto. }
  destruct (s32 (Z.shiftr wire 3) =? 2).
  { apply (MF vk value (fun x j => map_loop sc r1 env fuel kk vk data j (i + d) key x)
      (fun x j => map_loop sc r2 env fuel' kk vk data' j (i' + d) key x)); auto. intros c2 s2 x Es N2 Hx. destruct (ADV c2 s2 Es N2) as (V2 & A1 & A2 & A3 & A4 & -> & ->).
    eapply IH; eauto. }
  destruct (Skip_view _ _ _ _ _ _ V0) as [-> ->]. cbn [orpanic rbind].
  destruct (Skip_step _ _ _ _ _ _ V0) as [(r & s2 & num & wt & Es & R & Nr & -> & -> & I1 & I2 & Hi & Hi')|[(n & Sn & Hn & Hl & H1 & H2)|(e & Se)]].
  - cbn [rbind]. rewrite I1, I2. pose proof (zlen_nonneg r). replace ((zlen r <? 0) || (i + zlen r <? 0)) with false by lia.
    replace ((zlen r <? 0) || (i' + zlen r <? 0)) with false by lia.
    destruct (Z_lt_dec d (zlen r)) as [D'|D'].
    + replace (i + d <? i + zlen r) with true by lia. replace (i' + d <? i' + zlen r) with true by lia. right. eauto.
    + replace (i + d <? i + zlen r) with false by lia. replace (i' + d <? i' + zlen r) with false by lia.
      replace (i + d) with (i + zlen r + (d - zlen r)) by lia. replace (i' + d) with (i' + zlen r + (d - zlen r)) by lia.
      rewrite Es in V0. apply view_adv in V0.
      assert (length r <> 0)%nat by (destruct r; [contradiction|discriminate]).
      assert (length (c ++ s) = length (r ++ s2)) as El by now rewrite Es. rewrite !app_length in El.
      assert (zlen (c ++ s) = zlen (r ++ s2)) as Ez by now rewrite Es. rewrite !zlen_app in Ez.
      eapply IH; eauto; lia.
  - right. rewrite Sn. cbn [rbind]. pose proof (zlen_app c s).
    assert (exists e, (if (n <? 0) || (s64 (i + n) <? 0) then @Err unit (val * val * Z) EInvalidLength tt else
            if i + d <? s64 (i + n) then Err EUnexpectedEOF tt
            else map_loop sc r1 env fuel kk vk data (s64 (i + n)) (i + d) key value) = Err e tt) as [e E].
    { destruct ((n <? 0) || (s64 (i + n) <? 0)) eqn:A; [eauto|].
      assert (i + d <= zlen data).
      { destruct V0 as ((p & -> & ->) & _). rewrite !zlen_app. lia. }
      replace (i + d <? s64 (i + n)) with true by lia. eauto. }
    exists e. split; [exact E|]. intros ->. rewrite app_nil_r, Sn. cbn [rbind]. specialize (H2 eq_refl).
    destruct ((n <? 0) || (s64 (i' + n) <? 0)) eqn:A; [eauto|].
    assert (i' + d <= zlen data').
    { destruct V0 as (_ & (p & -> & ->) & _). rewrite !zlen_app. change (zlen (@nil Z)) with 0. lia. }
    replace (i' + d <? s64 (i' + n)) with true by lia. eauto.
  - right. exists e. rewrite Se. split; [reflexivity|]. intros ->. rewrite app_nil_r, Se. exists e. reflexivity.
Qed.

Section Msg.
Variable m : nat.
Notation md := (md_of sc m).

Lemma map_item_par f kk vk data data' i i' rest s' v : In f (md_fields md) -> f_ty f = TMap kk vk ->
  view data data' i i' rest s' -> (length rest <= N)%nat -> target sc m v ->
  par i i' rest s' (target sc m) (target sc m)
    (map_item sc r1 env f kk vk data i v) (map_item sc r2 env f kk vk data' i' v).
Proof.
  intros Hf T V Ln Tv. unfold map_item.
  pose proof (wf_ty sc m f W Hf) as WT. rewrite T in WT. cbn in WT. rewrite !andb_true_iff in WT.
  destruct WT as [[WK _] WG]. apply negb_true_iff in WG.
  destruct (target_vmsg _ _ _ Tv) as (ss & u & h & ->).
  destruct (decodeLen_view false _ _ _ _ _ _ V) as [(l & q & s & Er & Nl & L & -> & -> & Z1 & Z2)|(e & -> & X)].
  2:{ right. exists e, (VMsg ss u h). split; [reflexivity|]. split; [assumption|]. intros Z. destruct (X Z) as [e' ->].
      exists e'. reflexivity. }
  cbn [lift rbind orpanic get_slot set_slot].
  assert (wt_field sc md f (VMap (vmap (slot ss (f_slot f))))) as Wm.
  { destruct Tv as [Tv _]. inversion Tv as [? ? ? ? HL HF HB]; subst. specialize (HF f Hf). apply wt_field_inv in HF.
    rewrite T in HF. destruct HF as [->|(l0 & -> & H1 & H2 & H3)]; cbn [vmap].
    - eapply wt_map; eauto; try (intros e []). constructor.
    - eapply wt_map; eauto. }
  assert (forall x, mg_at sc f x) as MG by (intros x; split; intros *; rewrite T; discriminate).
  assert (is_oneof f = false) as NO by (unfold is_oneof; now rewrite T).
  assert (target sc m (VMsg (list_set ss (f_slot f) (VMap (vmap (slot ss (f_slot f))))) u h)) as T1.
  { apply target_set; auto. intros O. congruence. }
  pose proof V as V0. subst rest. apply view_adv in V0.
  assert (length data >= length (l ++ q ++ s))%nat as LD.
  { destruct V as ((p & -> & _) & _). rewrite app_length. lia. }
  assert (length data' >= length (l ++ q ++ s))%nat as LD'.
  { destruct V as (_ & (p & -> & _) & _). rewrite !app_length. lia. }
  rewrite !app_length in *.
  destruct (map_loop_par kk vk WK WG (S (length data)) (S (length data')) _ _ _ _ _ _ (zlen q)
             (map_zero kk) (map_zero vk) V0) as [(k' & v' & j & j' & -> & -> & Wk & Wv)|(e & -> & X)];
    try (rewrite ?zlen_app, ?app_length; pose proof (zlen_nonneg s); lia).
  - apply map_zero_wt. destruct kk; try discriminate WK; reflexivity.
  - apply map_zero_wt. assumption.
  - cbn [lift rbind orpanic set_slot]. left.
    exists (l ++ q), s. eexists. rewrite zlen_app, !Z.add_assoc, <- app_assoc. split; [reflexivity|].
    split; [destruct l; [contradiction|discriminate]|]. split; [reflexivity|]. split; [reflexivity|].
    apply target_set; auto.
    + eapply wt_map_set; eauto.
    + intros O. congruence.
  - cbn [lift rbind]. right. eexists e, _. split; [reflexivity|]. split; [assumption|].
    intros Z. destruct (X Z) as [e' ->]. exists e'. reflexivity.
Qed.

Lemma list_grow_target f p k mm h : hid_ok sc m h -> In f (md_fields md) ->
  f_ty f = TField (LRepeated p) k -> sub_of k = Some mm ->
  target sc mm (fst (list_grow sc md mm h (f_slot f))) /\ hid_ok sc m (snd (list_grow sc md mm h (f_slot f))).
Proof.
  intros H Hf T K. unfold list_grow. destruct (md_pool md); [|split; [now apply target_new|assumption]].
  destruct (nth (f_slot f) h []) as [|x r] eqn:E; [split; [now apply target_new|assumption]|].
  cbn [fst snd]. split.
  - destruct (H f p k mm x Hf T K) as [->|Tx]; [rewrite E; now left|now apply target_new|].
    destruct (target_vmsg _ _ _ Tx) as (? & ? & ? & ->). assumption.
  - intros g p' k' m' y Hg Tg Kg Hy. destruct (Nat.eq_dec (f_slot f) (f_slot g)) as [Es|Es].
    + assert (forall x y : fdesc, {x = y} + {x <> y}) as D by (repeat decide equality).
      destruct (D f g) as [<-|Ne].
      * assert (f_slot f < length h)%nat.
        { destruct (Nat.lt_ge_cases (f_slot f) (length h)); [assumption|]. rewrite nth_overflow in E by lia. discriminate. }
        rewrite nth_list_set_eq in Hy by assumption. apply (H f p' k' m' y Hf Tg Kg). rewrite E. now right.
      * destruct (wf_compat sc m f g W Hf Hg Ne) as [_ C]. destruct (C Es) as [C1 _].
        unfold is_oneof in C1. rewrite T in C1. discriminate.
    + rewrite nth_list_set_neq in Hy by assumption. eauto.
Qed.

Lemma slot_sub f l k mm s u h : target sc m (VMsg s u h) -> In f (md_fields md) ->
  f_ty f = TField l k -> l = LOptional \/ l = LRequired -> sub_of k = Some mm ->
  slot s (f_slot f) = VNil \/ target sc mm (slot s (f_slot f)).
Proof.
  intros T Hf Ty L K. apply target_iff in T as (_ & _ & _ & F). destruct (F f Hf) as [Wf [M _]].
  destruct (M l k mm Ty L K) as [->|Mg]; [now left|].
  destruct Mg as [m' s0 u0 h0 A B C]. right. split; [|now constructor].
  apply wt_field_inv in Wf. rewrite Ty in Wf.
  assert (wt_elem sc k (VMsg s0 u0 h0)) as We by (destruct L as [-> | ->];
    destruct Wf as [Wf|[(x & Wf & _)|(_ & _ & Wf)]]; try discriminate; assumption).
  inversion We; subst; try discriminate. congruence.
Qed.

Lemma slot_oneof f k mm s u h x : target sc m (VMsg s u h) -> In f (md_fields md) ->
  f_ty f = TField LOneof k -> sub_of k = Some mm -> slot s (f_slot f) = VOneof (f_num f) x ->
  target sc mm x.
Proof.
  intros T Hf Ty K E. apply target_iff in T as (_ & _ & _ & F). destruct (F f Hf) as [Wf [_ M]].
  specialize (M k mm x Ty K E). split; [|assumption].
  apply wt_field_inv in Wf. rewrite Ty in Wf. destruct Wf as [Wf|(g & kg & y & Ey & Hg & Sg & Tg & Wy)]; [congruence|].
  rewrite E in Ey. injection Ey as En <-.
  assert (f = g) as <- by (eapply wf_num_inj; eauto). rewrite Ty in Tg. injection Tg as <-.
  destruct M. inversion Wy; subst; try discriminate. congruence.
Qed.

Lemma set_sub f l k mm s u h x : target sc m (VMsg s u h) -> In f (md_fields md) ->
  f_ty f = TField l k -> l = LOptional \/ l = LRequired -> sub_of k = Some mm -> target sc mm x ->
  target sc m (VMsg (list_set s (f_slot f) x) u h).
Proof.
  intros T Hf Ty L K Tx. apply target_set; auto.
  - eapply wt_direct; eauto; try (destruct k; discriminate || reflexivity).
    eapply wt_sub; [eassumption|apply Tx].
  - split.
    + intros l' k' m' T' _ K'. right. assert (m' = mm) as -> by congruence. apply Tx.
    + intros k' m' y T'. rewrite Ty in T'. destruct L; congruence.
  - unfold is_oneof. rewrite Ty. destruct L as [-> | ->]; discriminate.
Qed.

Lemma set_oneof f k mm s u h x : target sc m (VMsg s u h) -> In f (md_fields md) ->
  f_ty f = TField LOneof k -> sub_of k = Some mm -> target sc mm x ->
  target sc m (VMsg (list_set s (f_slot f) (VOneof (f_num f) x)) u h).
Proof.
  intros T Hf Ty K Tx. apply target_set; auto.
  - eapply wt_oneof; eauto. eapply wt_sub; [eassumption|apply Tx].
  - split.
    + intros l' k' m' T' O. rewrite Ty in T'. destruct O; congruence.
    + intros k' m' y T' K' [= <-]. assert (m' = mm) as -> by congruence. apply Tx.
  - eauto.
Qed.

Lemma mg_rep f p k x : f_ty f = TField (LRepeated p) k -> mg_at sc f x.
Proof.
  intros T. split; intros *; rewrite T.
  - intros [= <- _]. intros [|]; discriminate.
  - discriminate.
Qed.

Lemma add_rep f p k s u h x : target sc m (VMsg s u h) -> In f (md_fields md) ->
  f_ty f = TField (LRepeated p) k -> wt_elem sc k x ->
  target sc m (VMsg (list_set s (f_slot f) (VList (vlist (slot s (f_slot f)) ++ [x]))) u h).
Proof.
  intros T Hf Ty Wx. pose proof T as T0. apply target_iff in T0 as (_ & _ & _ & F). destruct (F f Hf) as [Wf _].
  apply target_set; auto.
  - apply wt_field_inv in Wf. rewrite Ty in Wf. eapply wt_list; eauto.
    intros y Hy. rewrite in_app_iff in Hy. destruct Hy as [Hy|[<-|[]]]; [|assumption].
    destruct Wf as [Wf|(l & Wf & Hl)]; rewrite Wf in Hy; [destruct Hy|auto].
  - eapply mg_rep; eauto.
  - unfold is_oneof. rewrite Ty. discriminate.
Qed.

Lemma store_target f lbl k x v : target sc m v -> In f (md_fields md) -> f_ty f = TField lbl k ->
  sub_of k = None -> wt_elem sc k x -> (k = KBytes -> x <> VNil) ->
  exists v', store f lbl k x v = Some v' /\ target sc m v'.
Proof.
  intros T Hf Ty K Wx Nx. destruct (target_vmsg _ _ _ T) as (s & u & h & ->).
  unfold store. cbn [set_slot get_slot].
  assert (forall l y, f_ty f = TField l k -> (l = LImplicit \/ l = LOptional \/ l = LRequired) ->
    wt_field sc md f y -> target sc m (VMsg (list_set s (f_slot f) y) u h)) as SET.
  { intros l y Tl L Wy. apply target_set; auto.
    - split; intros * T'; rewrite Tl in T'; injection T'; intros; congruence.
    - unfold is_oneof. rewrite Tl. destruct L as [->|[->| ->]]; discriminate. }
  destruct lbl as [| | |p|]; eexists; (split; [reflexivity|]).
  - eapply SET; eauto. eapply wt_implicit; eauto.
  - eapply SET; eauto. destruct k; try discriminate K; cbn [classify];
      (eapply wt_ptr; now eauto) || (eapply wt_direct; eauto; discriminate).
  - eapply SET; eauto. destruct k; try discriminate K; cbn [classify];
      (eapply wt_ptr; now eauto) || (eapply wt_direct; eauto; discriminate).
  - eapply add_rep; eauto.
  - apply target_set; auto.
    + eapply wt_oneof; eauto.
    + split; intros * T'; rewrite Ty in T'; injection T'; intros; congruence.
    + eauto.
Qed.

Lemma message_item_par f lbl mm data data' i i' rest s' v : In f (md_fields md) -> f_ty f = TField lbl (KMessage mm) ->
  view data data' i i' rest s' -> (length rest <= N)%nat -> target sc m v ->
  par i i' rest s' (target sc m) (target sc m)
    (message_item sc r1 env md f lbl mm data i v) (message_item sc r2 env md f lbl mm data' i' v).
Proof.
  intros Hf T V Ln Tv. unfold message_item. destruct (target_vmsg _ _ _ Tv) as (ss & u & h & ->).
  pose proof (wf_ty sc m f W Hf) as WT. rewrite T in WT. cbn in WT.
  destruct (decodeLen_view false _ _ _ _ _ _ V) as [(l & q & s & Er & Nl & L & -> & -> & Z1 & Z2)|(e & -> & X)].
  2:{ right. exists e, (VMsg ss u h). split; [reflexivity|]. split; [assumption|]. intros Z. destruct (X Z) as [e' ->].
      exists e'. reflexivity. }
  cbn [lift rbind]. rewrite Z1, Z2. cbn [orpanic rbind ue_alloc safe_env].
  assert (forall b : bool, (if b then new_msg (md_of sc mm) else new_msg (md_of sc mm)) = new_msg (md_of sc mm)) as FR
    by now intros [].
  cbv zeta. rewrite !FR.
  pose proof (payload_len l q s rest Er Nl Ln) as Lq. subst rest. destruct (view_payload _ _ _ _ _ _ _ _ V) as [Bq Sq].
  pose proof (fun x => decodeMessage_ok (i + zlen l) (i' + zlen l) mm q x Lq Bq Sq) as DM.
  assert (forall (R R' : res val val), agree (target sc m) R R' ->
    par i i' (l ++ q ++ s) s' (target sc m) (target sc m)
      (do v' <- R; Ok (v', i + zlen l + zlen q)) (do v' <- R'; Ok (v', i' + zlen l + zlen q))) as FIN.
  { intros R R' [(v' & -> & -> & Tv')|(e & e' & v' & -> & -> & Tv')]; cbn [rbind].
    - left. exists (l ++ q), s, v'. rewrite zlen_app, !Z.add_assoc, <- app_assoc. repeat split; auto; try apply Tv'.
      destruct l; [contradiction|discriminate].
    - right. exists e, v'. split; [reflexivity|]. split; [assumption|]. eauto. }
  apply FIN; clear FIN.
  assert (forall tgt (put : val -> option val), target sc mm tgt ->
    (forall x, target sc mm x -> exists v', put x = Some v' /\ target sc m v') ->
    agree (target sc m) (nest (decodeMessage sc r1 (i + zlen l) mm q tgt) put)
      (nest (decodeMessage sc r2 (i' + zlen l) mm q tgt) put)) as NEST.
  { intros tgt put Tt Hp. destruct (DM tgt Tt) as [(x & -> & -> & Tx)|(e & e' & x & -> & -> & Tx)]; cbn [nest];
      destruct (Hp x Tx) as (v' & -> & Tv'); [left|right]; eauto 7. }
  destruct lbl as [| | |p|].
  - rewrite andb_comm in WT. discriminate WT.
  - apply NEST.
    + destruct (slot_sub f _ _ mm ss u h Tv Hf T (or_introl eq_refl) eq_refl) as [->|Tx]; [now apply target_new|].
      destruct (target_vmsg _ _ _ Tx) as (? & ? & ? & Ex). rewrite Ex in *. assumption.
    + intros x Tx. cbn [set_slot]. eexists. split; [reflexivity|]. eapply set_sub; eauto. reflexivity.
  - apply NEST.
    + destruct (slot_sub f _ _ mm ss u h Tv Hf T (or_intror eq_refl) eq_refl) as [->|Tx]; [now apply target_new|].
      destruct (target_vmsg _ _ _ Tx) as (? & ? & ? & Ex). rewrite Ex in *. assumption.
    + intros x Tx. cbn [set_slot]. eexists. split; [reflexivity|]. eapply set_sub; eauto. reflexivity.
  - assert (hid_ok sc m h) as Hh by (apply target_iff in Tv; tauto).
    destruct (list_grow_target f p _ mm h Hh Hf T eq_refl) as [G1 G2].
    destruct (list_grow sc md mm h (f_slot f)) as [tgt h']. cbn [fst snd] in *.
    apply NEST; [assumption|]. intros x Tx. eexists. split; [reflexivity|].
    eapply target_hid; [|eassumption]. eapply add_rep; eauto. eapply wt_sub; [reflexivity|apply Tx].
  - set (keep := match slot ss (f_slot f) with VOneof n x => if n =? f_num f then Some x else None | _ => None end).
    destruct keep as [x|] eqn:Ek; unfold keep in Ek.
    + assert (slot ss (f_slot f) = VOneof (f_num f) x) as Es.
      { destruct (slot ss (f_slot f)); try discriminate. destruct (num =? f_num f) eqn:En; [|discriminate].
        injection Ek as ->. f_equal. lia. }
      apply NEST; [eapply slot_oneof; eauto; reflexivity|]. intros x' Tx. cbn [set_slot].
      eexists. split; [reflexivity|]. eapply set_oneof; eauto. reflexivity.
    + destruct (DM _ (target_new sc W mm)) as [(x & -> & -> & Tx)|(e & e' & x & -> & -> & Tx)]; cbn [drop_state rbind set_slot orpanic].
      * left. eexists. split; [reflexivity|]. split; [reflexivity|]. eapply set_oneof; eauto. reflexivity.
      * right. eexists _, _, _. split; [reflexivity|]. split; [reflexivity|]. assumption.
Qed.

(** A group never decodes: the loop tests the wrong variable. *)
Lemma group_loop_err f mm wire start v : Z.land wire 7 = 3 ->
  forall fuel data i, small data -> bytes_ok data = true -> 0 <= i ->
  zlen data - i < Z.of_nat fuel -> (0 < fuel)%nat ->
  forall rc, exists e, group_loop sc rc fuel f mm wire data start i v = Err e v.
Proof.
  intros Hw. induction fuel as [|fuel IH]; intros data i S B Hi F F0 rc; [lia|].
  cbn [group_loop]. rewrite Hw. change (3 =? 4) with false. cbv iota zeta.
  destruct (Z_le_dec (zlen data) i) as [L|L].
  - unfold decodeVarint, read_varint. change (64 <=? 0) with false. cbv iota.
    replace (zlen data <=? i) with true by lia. cbn [lift rbind]. eauto.
  - assert (exists p rest, data = p ++ rest /\ i = zlen p) as (p & rest & -> & ->).
    { exists (firstn (Z.to_nat i) data), (skipn (Z.to_nat i) data). rewrite firstn_skipn. split; [reflexivity|].
      unfold zlen in *. rewrite firstn_length. lia. }
    rewrite bytes_ok_app in B. apply andb_true_iff in B as [B1 B].
    assert (view (p ++ rest) (p ++ rest) (zlen p) (zlen p) rest []) as V.
    { repeat split; auto; exists p; rewrite ?app_nil_r; auto. }
    destruct (decodeVarint_par u64 0 _ _ _ _ _ _ conv_u64 V) as [(c & s & w2 & -> & Nc & -> & _ & _)|(e & [] & -> & _)];
      [|cbn; eauto].
    cbn [lift rbind]. apply view_adv in V. destruct (Skip_view _ _ _ _ _ _ V) as [-> _]. cbn [orpanic rbind].
    assert (0 < zlen c) by (destruct c; [contradiction|rewrite zlen_cons; pose proof (zlen_nonneg c); lia]).
    pose proof (zlen_nonneg s). pose proof (zlen_nonneg p).
    destruct (Skip_step _ _ _ _ _ _ V) as [(r & s2 & num & wt & Es & R & Nr & -> & _ & I1 & _)|[(n & -> & Hn & Hl & Hb & _)|(e & ->)]].
    + cbn [lift rbind]. rewrite I1. pose proof (zlen_nonneg r).
      replace ((zlen r <? 0) || (zlen p + zlen c + zlen r <? 0)) with false by lia.
      apply IH; auto; try lia. now rewrite bytes_ok_app, B1.
    + cbn [lift rbind]. destruct ((n <? 0) || (s64 (zlen p + zlen c + n) <? 0)) eqn:E; [eauto|].
      apply IH; auto; try lia. now rewrite bytes_ok_app, B1.
    + cbn [lift rbind]. eauto.
Qed.

Lemma fieldItem_par f lbl k wire data data' i i' rest s' v : In f (md_fields md) -> f_ty f = TField lbl k ->
  (is_group k = true -> Z.land wire 7 = 3 /\ bytes_ok data = true /\ bytes_ok data' = true) ->
  view data data' i i' rest s' -> (length rest <= N)%nat -> target sc m v ->
  par i i' rest s' (target sc m) (target sc m)
    (fieldItem sc r1 env md f lbl k wire data i v) (fieldItem sc r2 env md f lbl k wire data' i' v).
Proof.
  intros Hf T HG V Ln Tv. unfold fieldItem.
  assert (is_num k = true ->
    par i i' rest s' (target sc m) (target sc m) (num_item f lbl k data i v) (num_item f lbl k data' i' v)) as M.
  { intros Nk. assert (in_range k 0 = true) as R0 by (destruct k; try discriminate Nk; reflexivity).
    assert (sub_of k = None) as Sk by (destruct k; try discriminate Nk; reflexivity).
    assert (v <> VNil) as Nv by (destruct (target_vmsg _ _ _ Tv) as (? & ? & ? & ->); discriminate).
    destruct (decodeNumber_par k 0 _ _ _ _ _ _ Nk R0 V) as [(c & s & a & Er & Nc & E1 & E2 & Ha)|(e & st & E1 & _ & X)].
    - left. destruct (store_target f lbl k (VInt a) v Tv Hf T Sk) as (v' & Ev & Tv'); [now constructor|discriminate|].
      exists c, s, v'. split; [assumption|]. split; [assumption|]. split; [eapply num_item_ok; eauto|]. split; [eapply num_item_ok; eauto|assumption].
    - right. assert (exists v0, number_start f lbl k data i v = Some v0 /\ target sc m v0 /\ (s' = [] -> number_start f lbl k data' i' v = Some v0)) as (v0 & Es & T0 & X0).
      { destruct (in_place lbl k) eqn:P; [|exists v; unfold number_start; rewrite P; auto].
        pose proof (in_place_implicit _ _ P) as El. rewrite El in P.
        destruct (store_target f lbl k (VInt (left_number k data i)) v Tv Hf T Sk) as (v' & Ev & Tv'); [constructor; now apply left_range|discriminate|].
        exists v'. rewrite !number_start_store, El, P. rewrite El in Ev. split; [assumption|]. split; [assumption|]. intros ->. now rewrite <- (left_view _ _ _ _ _ _ V). }
      exists e, v0. unfold num_item. rewrite Es, E1. split; [reflexivity|]. split; [assumption|]. intros Z. rewrite (X0 Z). destruct (X Z) as [e' ->]. exists e'. reflexivity. }
  assert (forall b (mk : list Z -> val), (forall q, bytes_ok q = true -> wt_elem sc k (mk q)) -> (forall q, mk q <> VNil) ->
    sub_of k = None ->
    par i i' rest s' (target sc m) (target sc m)
      (do r <- lift v (decodeLen b data i); let (i, post) := r in
       do s <- orpanic (zslice data i post); do v' <- orpanic (store f lbl k (mk s) v); Ok (v', post))
      (do r <- lift v (decodeLen b data' i'); let (i, post) := r in
       do s <- orpanic (zslice data' i post); do v' <- orpanic (store f lbl k (mk s) v); Ok (v', post))) as D.
  { intros b mk Hmk Nmk K.
    destruct (decodeLen_view b _ _ _ _ _ _ V) as [(l & q & s & Er & Nl & L & -> & -> & Z1 & Z2)|(e & -> & X)].
    - cbn [lift rbind]. rewrite Z1, Z2. cbn [orpanic rbind]. subst rest. destruct (view_payload _ _ _ _ _ _ _ _ V) as [Bq Sq].
      destruct (store_target f lbl k (mk q) v Tv Hf T K (Hmk q Bq)) as (v' & -> & Tv'); [auto|].
      left. exists (l ++ q), s, v'. rewrite zlen_app, !Z.add_assoc, <- app_assoc. cbn [orpanic rbind]. repeat split; auto; try apply Tv'.
      destruct l; [contradiction|discriminate].
    - right. exists e, v. split; [reflexivity|]. split; [assumption|]. intros Z. destruct (X Z) as [e' ->]. exists e'. reflexivity. }
  destruct k as [| | | | | | | | |mm|mm| | | | | | |]; cbn [classify]; try (apply M; reflexivity).
  - apply (D true VStr); [now constructor|discriminate|reflexivity].
  - (* group *) right. destruct V as ((p & Ep & ->) & (p' & Ep' & ->) & B & S & S').
    destruct (HG eq_refl) as (Hw & Bd & Bd').
    destruct (group_loop_err f mm wire (zlen p) v Hw (Datatypes.S (length data)) data (zlen p) S Bd) with (rc := r1) as (e & E1);
      try apply zlen_nonneg; try (unfold zlen; lia).
    exists e, v. split; [exact E1|]. split; [assumption|]. intros _.
    apply group_loop_err; auto; try apply zlen_nonneg; try (unfold zlen; lia).
  - now apply message_item_par.
  - apply (D false VBytes); [now constructor|discriminate|reflexivity].
Qed.

Lemma packed_loop_par f lbl k wire : In f (md_fields md) -> f_ty f = TField lbl k -> is_group k = false ->
  forall fuel fuel' data data' i i' rest s' d v,
  view data data' i i' rest s' -> (length rest <= N)%nat -> target sc m v ->
  (length rest < fuel)%nat -> (length rest < fuel')%nat ->
  (exists c s v', rest = c ++ s /\ target sc m v' /\
     packed_loop sc r1 env fuel md f lbl k wire data i (i + d) v = Ok (v', i + zlen c) /\
     packed_loop sc r2 env fuel' md f lbl k wire data' i' (i' + d) v = Ok (v', i' + zlen c)) \/
  (exists e st, packed_loop sc r1 env fuel md f lbl k wire data i (i + d) v = Err e st /\ target sc m st /\
     (s' = [] -> exists e', packed_loop sc r2 env fuel' md f lbl k wire data' i' (i' + d) v = Err e' st)).
Proof.
  intros Hf T G. induction fuel as [|fuel IH]; intros fuel' data data' i i' rest s' d v V Ln Tv F F'; [lia|].
  destruct fuel' as [|fuel']; [lia|]. cbn [packed_loop].
  destruct (Z_lt_dec 0 d) as [D|D].
  2:{ replace (i <? i + d) with false by lia. replace (i' <? i' + d) with false by lia. left.
      exists [], rest, v. change (zlen (@nil Z)) with 0. rewrite !Z.add_0_r. auto. }
  replace (i <? i + d) with true by lia. replace (i' <? i' + d) with true by lia.
  destruct (fieldItem_par f lbl k wire _ _ _ _ _ _ v Hf T ltac:(congruence) V Ln Tv)
    as [(c & s & v' & -> & Nc & -> & -> & Tv')|(e & st & -> & Te & X)].
  - cbn [rbind fst snd]. rewrite app_length in *.
    assert (length c <> 0)%nat by (destruct c; [contradiction|discriminate]).
    destruct (IH fuel' _ _ _ _ _ _ (d - zlen c) v' (view_adv _ _ _ _ _ _ _ V)) as [(c2 & s2 & v2 & -> & T2 & E1 & E2)|(e & st & E1 & T2 & E2)];
      try lia; auto.
    + left. exists (c ++ c2), s2, v2. rewrite <- app_assoc, zlen_app, !Z.add_assoc.
      replace (i + zlen c + (d - zlen c)) with (i + d) in E1 by lia.
      replace (i' + zlen c + (d - zlen c)) with (i' + d) in E2 by lia. auto.
    + right. exists e, st. replace (i + zlen c + (d - zlen c)) with (i + d) in E1 by lia.
      replace (i' + zlen c + (d - zlen c)) with (i' + d) in E2 by lia. auto.
  - cbn [rbind]. right. exists e, st. split; [reflexivity|]. split; [assumption|].
    intros Z. destruct (X Z) as [e' ->]. exists e'. reflexivity.
Qed.

Lemma um_field_par f wire data data' i i' rest s' v : In f (md_fields md) ->
  view data data' i i' rest s' -> bytes_ok data = true -> bytes_ok data' = true ->
  (length rest <= N)%nat -> target sc m v ->
  par i i' rest s' (target sc m) (target sc m)
    (um_field sc r1 env md f wire data i v) (um_field sc r2 env md f wire data' i' v).
Proof.
  intros Hf V B B' Ln Tv. unfold um_field.
  assert (forall e, par i i' rest s' (target sc m) (target sc m)
    (@Err val (val * Z) e v) (Err e v)) as ERR by (intros e; right; exists e, v; eauto).
  destruct (f_ty f) as [lbl k|kk vk] eqn:T.
  - assert (Z.land wire 7 = ProtoWireType k -> is_group k = true -> Z.land wire 7 = 3 /\ bytes_ok data = true /\ bytes_ok data' = true) as HG.
    { intros -> G. destruct k; try discriminate G. auto. }
    destruct (packable lbl k) eqn:P; destruct (Z.land wire 7 =? ProtoWireType k) eqn:E; auto;
      try (apply Z.eqb_eq in E; apply fieldItem_par; now auto).
    destruct (Z.land wire 7 =? 2); auto.
    assert (is_group k = false) as G.
    { unfold packable in P. pose proof (wf_ty sc m f W Hf) as WT. rewrite T in WT. destruct lbl; try discriminate.
      cbn in WT. destruct k; try reflexivity. rewrite !andb_false_r in WT. discriminate. }
    destruct (decodeLen_view false _ _ _ _ _ _ V) as [(l & q & s & Er & Nl & L & -> & -> & Z1 & Z2)|(e & -> & X)].
    2:{ right. exists e, v. split; [reflexivity|]. split; [assumption|]. intros Z. destruct (X Z) as [e' ->].
        exists e'. reflexivity. }
    cbn [lift rbind]. subst rest. pose proof V as V0. apply view_adv in V0.
    assert (length data >= length (l ++ q ++ s))%nat as LD.
    { destruct V as ((p & -> & _) & _). rewrite app_length. lia. }
    assert (length data' >= length (l ++ q ++ s))%nat as LD'.
    { destruct V as (_ & (p & -> & _) & _). rewrite !app_length. lia. }
    rewrite (app_length l) in *.
    destruct (packed_loop_par f lbl k wire Hf T G (S (length data)) (S (length data')) _ _ _ _ _ _ (zlen q) v V0)
      as [(c2 & s2 & v2 & E2 & T2 & -> & ->)|(e & st & -> & T2 & X)]; try lia; auto.
    + left. exists (l ++ c2), s2, v2. rewrite E2, <- app_assoc, zlen_app, !Z.add_assoc. repeat split; auto; try apply T2.
      destruct l; [contradiction|discriminate].
    + right. eauto.
  - destruct (Z.land wire 7 =? 2); auto. now apply map_item_par.
Qed.

Lemma um_unknown_par num data data' i i' rest s' v : view data data' i i' rest s' -> target sc m v ->
  par i i' rest s' (target sc m) (target sc m) (um_unknown sc m num data i v) (um_unknown sc m num data' i' v).
Proof.
  intros V Tv. unfold um_unknown. destruct (Skip_view _ _ _ _ _ _ V) as [-> ->]. cbn [orpanic rbind].
  destruct (target_vmsg _ _ _ Tv) as (ss & u & h & ->).
  destruct (Skip_step _ _ _ _ _ _ V) as [(r & s2 & n & wt & -> & R & Nr & -> & -> & I1 & I2 & Hi & Hi')|[(n & Sn & Hn & Hl & H1 & H2)|(e & Se)]].
  - cbn [lift rbind]. rewrite I1, I2. pose proof (zlen_nonneg r). pose proof (zlen_nonneg s2). pose proof (zlen_nonneg s').
    replace ((zlen r <? 0) || (i + zlen r <? 0)) with false by lia.
    replace ((zlen r <? 0) || (i' + zlen r <? 0)) with false by lia.
    destruct V as ((p & -> & ->) & (p' & -> & ->) & B & S & S').
    rewrite !zlen_app. replace (zlen p + (zlen r + zlen s2) <? zlen p + zlen r) with false by lia.
    replace (zlen p' + (zlen r + zlen s2 + zlen s') <? zlen p' + zlen r) with false by lia.
    rewrite <- (app_assoc r s2 s'), !zslice_app. cbn [orpanic rbind].
    rewrite bytes_ok_app in B. apply andb_true_iff in B as [B1 B2].
    destruct (in_ext md num); [destruct (up_ext (sc_up sc) m r) eqn:Ex|destruct (md_keep md)]; cbn [add_unknown orpanic rbind].
    + left. exists r, s2, v. repeat split; auto; eapply up_ext_wt; eauto.
    + right. exists EUpstream, (VMsg ss u h). eauto.
    + left. exists r, s2. eexists. split; [reflexivity|]. split; [assumption|]. split; [reflexivity|].
      split; [reflexivity|]. now apply target_unk.
    + left. exists r, s2, (VMsg ss u h). auto.
  - right. rewrite Sn. cbn [lift rbind].
    assert (forall dd j, s64 (j + n) < 0 \/ zlen dd < s64 (j + n) ->
       exists e, (if (n <? 0) || (s64 (j + n) <? 0) then @Err val (val * Z) EInvalidLength (VMsg ss u h) else
        if zlen dd <? s64 (j + n) then Err EUnexpectedEOF (VMsg ss u h) else
        do raw <- orpanic (zslice dd j (s64 (j + n)));
        (if in_ext md num then match up_ext (sc_up sc) m raw with Some v' => Ok (v', s64 (j + n)) | None => Err EUpstream (VMsg ss u h) end
         else if md_keep md then do v' <- orpanic (add_unknown (VMsg ss u h) raw); Ok (v', s64 (j + n))
         else Ok (VMsg ss u h, s64 (j + n)))) = Err e (VMsg ss u h)) as K.
    { intros dd j Hj. destruct ((n <? 0) || (s64 (j + n) <? 0)) eqn:A; [eauto|].
      replace (zlen dd <? s64 (j + n)) with true by lia. eauto. }
    destruct (K data i H1) as [e E]. exists e, (VMsg ss u h). split; [exact E|]. split; [assumption|].
    intros ->. rewrite app_nil_r, Sn. cbn [lift rbind]. exact (K data' i' (H2 eq_refl)).
  - right. exists e, (VMsg ss u h). rewrite Se. split; [reflexivity|]. split; [assumption|].
    intros ->. rewrite app_nil_r, Se. exists e. reflexivity.
Qed.

Definition step_ok (i i' : Z) (rest s' : list Z) (r r' : res val (val * Z * list Z)) : Prop :=
  (exists c s v' has', rest = c ++ s /\ c <> [] /\ target sc m v' /\
     r = Ok (v', i + zlen c, has') /\ r' = Ok (v', i' + zlen c, has')) \/
  (exists e st, r = Err e st /\ target sc m st /\ (s' = [] -> exists e', r' = Err e' st)).

Lemma um_step_par data data' i i' rest s' v has : view data data' i i' rest s' ->
  bytes_ok data = true -> bytes_ok data' = true -> (length rest <= N)%nat -> target sc m v ->
  step_ok i i' rest s' (um_step sc r1 env m data i v has) (um_step sc r2 env m data' i' v has).
Proof.
  intros V B B' Ln Tv. unfold um_step.
  destruct (decodeVarint_par u64 0 _ _ _ _ _ _ conv_u64 V) as [(c & s & wire & Er & Nc & -> & -> & _)|(e & [] & -> & _ & X)].
  2:{ right. exists e, v. split; [reflexivity|]. split; [assumption|]. intros Z. destruct (X Z) as [e' ->]. exists e'. reflexivity. }
  cbn [lift rbind]. destruct (Z.land wire 7 =? 4); [right; exists EWireType, v; eauto|].
  destruct (s32 (Z.shiftr wire 3) <=? 0); [right; exists EIllegalTag, v; eauto|].
  destruct (find_field _ _) as [f|] eqn:Ff.
  - apply find_some in Ff as [Hf _]. subst rest. rewrite app_length in Ln.
    destruct (um_field_par f wire _ _ _ _ _ _ v Hf (view_adv _ _ _ _ _ _ _ V) B B' ltac:(lia) Tv)
      as [(c2 & s2 & v2 & -> & N2 & -> & -> & T2)|(e & st & -> & T2 & X)].
    + left. exists (c ++ c2), s2, v2. eexists. rewrite <- app_assoc, zlen_app, !Z.add_assoc. cbn [rbind fst snd].
      split; [reflexivity|]. split; [destruct c; [contradiction|discriminate]|]. auto.
    + right. exists e, st. split; [reflexivity|]. split; [assumption|]. intros Z. destruct (X Z) as [e' ->]. exists e'. reflexivity.
  - destruct (um_unknown_par (s32 (Z.shiftr wire 3)) _ _ _ _ _ _ v V Tv)
      as [(c2 & s2 & v2 & -> & N2 & -> & -> & T2)|(e & st & -> & T2 & X)].
    + left. exists c2, s2, v2, has. auto.
    + right. exists e, st. split; [reflexivity|]. split; [assumption|]. intros Z. destruct (X Z) as [e' ->]. exists e'. reflexivity.
Qed.

(** [n] iterations of the message loop. *)
Inductive steps (rc : Z -> nat -> list Z -> val -> res val val) (data : list Z) :
  nat -> val * Z * list Z -> val * Z * list Z -> Prop :=
| steps_0 st : steps rc data 0 st st
| steps_S n v i has st st' : i < zlen data -> um_step sc rc env m data i v has = Ok st ->
    steps rc data n st st' -> steps rc data (S n) (v, i, has) st'.

Lemma steps_loop rc data n v i has v' i' has' fuel : steps rc data n (v, i, has) (v', i', has') -> (n <= fuel)%nat ->
  um_loop sc rc env fuel m data i v has = um_loop sc rc env (fuel - n) m data i' v' has'.
Proof.
  revert v i has fuel. induction n as [|n IH]; intros v i has fuel H L; inversion H; subst.
  - now rewrite Nat.sub_0_r.
  - destruct fuel as [|fuel]; [lia|]. cbn [um_loop]. replace (i <? zlen data) with true by lia.
    match goal with E : um_step _ _ _ _ _ _ _ _ = Ok ?s |- _ => rewrite E; destruct s as [[v1 i1] has1] end.
    cbn [rbind]. cbn [Nat.sub]. apply IH; auto; lia.
Qed.

Lemma steps_det rc data n st a b : steps rc data n st a -> steps rc data n st b -> a = b.
Proof.
  intros H. revert b. induction H; intros b Hb; inversion Hb; subst; [reflexivity|]. apply IHsteps. congruence.
Qed.

Lemma steps_app rc data n k a b c : steps rc data n a b -> steps rc data k b c -> steps rc data (n + k) a c.
Proof. induction 1; intros; cbn; [assumption|]. econstructor; eauto. Qed.

Lemma steps_split rc data n : forall k a c, steps rc data (n + k) a c -> exists b, steps rc data n a b /\ steps rc data k b c.
Proof.
  induction n as [|n IH]; intros k a c H; cbn in H.
  - exists a. split; [constructor|assumption].
  - inversion H as [|? ? ? ? ? ? ? ? HS]; subst. destruct (IH _ _ _ HS) as (b & B1 & B2). exists b. split; [|assumption]. econstructor; eauto.
Qed.

Lemma um_loop_par : forall fuel fuel' data data' i i' rest s' v has, view data data' i i' rest s' ->
  bytes_ok data = true -> bytes_ok data' = true -> (length rest <= N)%nat -> target sc m v ->
  (length rest < fuel)%nat -> (length rest < fuel')%nat ->
  (exists v' has' n, (n <= length rest)%nat /\ target sc m v' /\
     um_loop sc r1 env fuel m data i v has = Ok (v', i + zlen rest, has') /\
     steps r1 data n (v, i, has) (v', i + zlen rest, has') /\
     steps r2 data' n (v, i', has) (v', i' + zlen rest, has')) \/
  (exists e st, um_loop sc r1 env fuel m data i v has = Err e st /\ target sc m st /\
     (s' = [] -> exists e', um_loop sc r2 env fuel' m data' i' v has = Err e' st)).
Proof.
  induction fuel as [|fuel IH]; intros fuel' data data' i i' rest s' v has V B B' Ln Tv F F'; [lia|].
  destruct rest as [|b0 rest0].
  - left. exists v, has, 0%nat. change (zlen (@nil Z)) with 0. rewrite !Z.add_0_r. split; [lia|]. split; [assumption|].
    split; [|split; constructor].
    cbn [um_loop]. destruct V as ((p & -> & ->) & _). rewrite app_nil_r, Z.ltb_irrefl. reflexivity.
  - destruct fuel' as [|fuel']; [lia|]. set (rest := b0 :: rest0) in *. cbn [um_loop].
    assert (i < zlen data /\ i' < zlen data') as [Hi Hi'].
    { destruct V as ((p & -> & ->) & (p' & -> & ->) & _). unfold rest. rewrite !zlen_app, !zlen_cons.
      pose proof (zlen_nonneg rest0). pose proof (zlen_nonneg s'). lia. }
    replace (i <? zlen data) with true by lia. replace (i' <? zlen data') with true by lia.
    destruct (um_step_par _ _ _ _ _ _ v has V B B' Ln Tv) as [(c & s & v1 & has1 & Er & Nc & T1 & E1 & E2)|(e & st & -> & T1 & X)].
    + rewrite E1, E2. cbn [rbind]. rewrite Er in *. rewrite app_length in *.
      assert (length c <> 0)%nat by (destruct c; [contradiction|discriminate]).
      destruct (IH fuel' _ _ _ _ _ _ v1 has1 (view_adv _ _ _ _ _ _ _ V) B B') as [(v2 & has2 & n & Hn & T2 & E3 & E4 & E5)|(e & st & E3 & T2 & X)];
        try lia; auto.
      * left. exists v2, has2, (S n). rewrite E3, zlen_app, !Z.add_assoc. split; [lia|]. split; [assumption|].
        split; [reflexivity|]. split; econstructor; eauto.
      * right. exists e, st. auto.
    + right. exists e, st. cbn [rbind]. split; [reflexivity|]. split; [assumption|]. intros Z. destruct (X Z) as [e' ->].
      exists e'. reflexivity.
Qed.
End Msg.
End Step.

Lemma view_self data : bytes_ok data = true -> small data -> view data data 0 0 data [].
Proof. intros B S. repeat split; auto; exists []; rewrite ?app_nil_r; auto. Qed.

Section Top.
Variable sc : schema.
Hypothesis W : wf_schema sc = true.
Hypothesis U : up_dec_ok sc.

Lemma um_msg_ok : forall n n' m data v, (length data < n)%nat -> (length data < n')%nat ->
  bytes_ok data = true -> small data -> target sc m v ->
  agree (target sc m) (um_msg sc n m data v) (um_msg sc n' m data v).
Proof.
  induction n as [|n IH]; intros n' m data v L L' B S T; [lia|].
  destruct n' as [|n']; [lia|]. cbn [um_msg]. unfold um_body.
  assert (forall m buf v, (length buf < length data)%nat -> bytes_ok buf = true -> small buf -> target sc m v ->
    agree (target sc m) (um_msg sc n m buf v) (um_msg sc n' m buf v)) as R.
  { intros. apply IH; auto; lia. }
  destruct (um_loop_par sc W U (length data) _ _ R m (Datatypes.S (length data)) (Datatypes.S (length data)) data data 0 0 data [] v
              (has_init (md_of sc m)) (view_self _ B S) B B) as [(v' & has' & k & Hk & T' & E1 & _ & E2)|(e & st & E1 & T' & X)];
    try lia; auto.
  - rewrite E1, (steps_loop _ _ _ _ _ _ _ _ _ _ _ (Datatypes.S (length data)) E2) by lia. cbn [rbind].
    rewrite Z.add_0_l, Z.ltb_irrefl.
    destruct (Datatypes.S (length data) - k)%nat as [|j] eqn:Ej; [lia|]. cbn [um_loop]. rewrite Z.ltb_irrefl. cbn [rbind].
    destruct (has_all _ has'); cbn [negb]; [left|right]; rewrite ?Z.ltb_irrefl; eauto 7.
  - rewrite E1. destruct (X eq_refl) as [e' ->]. cbn [rbind]. right. eauto 7.
Qed.

(** UnmarshalVT returns a message or an error, and in both cases leaves a
    well-typed message behind. *)
Lemma UnmarshalVT_total m data v : bytes_ok data = true -> small data -> target sc m v ->
  (exists v', UnmarshalVT sc m data v = Ok v' /\ target sc m v') \/
  (exists e v', UnmarshalVT sc m data v = Err e v' /\ target sc m v').
Proof.
  intros B S T. unfold UnmarshalVT.
  destruct (um_msg_ok (Datatypes.S (length data)) (Datatypes.S (length data)) m data v) as [(a & E & _ & Q)|(e & _ & a & E & _ & Q)];
    auto; [left|right]; eauto.
Qed.

(** Recursion through [rec] of the model is recursion through UnmarshalVT. *)
Lemma um_msg_call n m data v : (length data < n)%nat -> bytes_ok data = true -> small data -> target sc m v ->
  agree (target sc m) (um_msg sc n m data v) (UnmarshalVT sc m data v).
Proof. intros. unfold UnmarshalVT. apply um_msg_ok; auto. Qed.
End Top.
