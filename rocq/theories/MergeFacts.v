(** UnmarshalVT on concatenated input, on prefixes, and on input that goes wrong
    after some conforming records. *)
From Coq Require Import ZArith List Bool Lia.
From Verif Require Import Base BaseFacts Schema Value Helpers Unmarshal WireSpec Typing RecordSpec MsgSpec
  VarintFacts SkipFacts OrderFacts NumFacts ViewFacts TargetFacts UmFacts LoopFacts DecodeSpec DecodeFacts.
Import ListNotations.
Open Scope Z_scope.

Section Merge.
Variable sc : schema.
Hypothesis W : wf_schema sc = true.
Hypothesis U : up_dec_ok sc.
Notation env := (safe_env sc).
Notation rc n := (fun _ : Z => um_msg sc n).

(** The required bits are only ever added to, and influence nothing else. *)
Lemma um_step_has m rc0 data i v has v' i' has' : um_step sc rc0 env m data i v has = Ok (v', i', has') ->
  exists num, has' = mark sc m num has /\
    forall has2, um_step sc rc0 env m data i v has2 = Ok (v', i', mark sc m num has2).
Proof.
  unfold um_step. destruct (lift v (decodeVarint u64 0 data i)) as [[wire j]| | |]; cbn [rbind]; try discriminate.
  destruct (_ =? 4); [discriminate|]. destruct (_ <=? 0); [discriminate|]. intros E. exists (s32 (Z.shiftr wire 3)). unfold mark.
  destruct (find_field _ _) as [f|].
  - destruct (um_field _ _ _ _ _ _ _ _ _) as [[]| | |]; cbn [rbind fst snd] in *; try discriminate.
    injection E as <- <- <-. auto.
  - destruct (um_unknown _ _ _ _ _ _) as [[]| | |]; cbn [rbind fst snd] in *; try discriminate.
    injection E as <- <- <-. auto.
Qed.

Lemma steps_has m rc0 data k : forall v i has v' i' has', steps sc m rc0 data k (v, i, has) (v', i', has') ->
  exists nums, has' = marksn sc m nums has /\
    forall has2, steps sc m rc0 data k (v, i, has2) (v', i', marksn sc m nums has2).
Proof.
  induction k as [|k IH]; intros v i has v' i' has' H; inversion H as [|? ? ? ? [[v1 i1] has1] ? Hi Es Hs]; subst.
  - exists []. split; [reflexivity|]. intros. constructor.
  - apply um_step_has in Es as (num & -> & E2). apply IH in Hs as (nums & -> & S2).
    exists (num :: nums). split; [reflexivity|]. intros has2. econstructor; [assumption|apply E2|]. apply (S2 (mark sc m num has2)).
Qed.

Lemma mark_length m num has : length (mark sc m num has) = length has.
Proof. unfold mark. destruct (find_field _ _); [apply has_set_length|reflexivity]. Qed.

Lemma marksn_length m nums : forall has, length (marksn sc m nums has) = length has.
Proof.
  induction nums as [|n nums IH]; intros has; [reflexivity|]. change (marksn sc m (n :: nums) has) with (marksn sc m nums (mark sc m n has)). rewrite IH. apply mark_length.
Qed.

Lemma marksn_bit m nums f : In f (md_fields (md_of sc m)) -> is_required f = true -> forall has,
  length has = length (has_init (md_of sc m)) ->
  has_bit (md_of sc m) (marksn sc m nums has) f = existsb (Z.eqb (f_num f)) nums || has_bit (md_of sc m) has f.
Proof.
  intros Hf Rf. induction nums as [|n nums IH]; intros has L; [reflexivity|]. 
  change (marksn sc m (n :: nums) has) with (marksn sc m nums (mark sc m n has)). cbn [existsb].
  rewrite IH by (now rewrite mark_length). unfold mark. destruct (find_field n _) as [g|] eqn:E.
  - apply find_some in E as [Hg En]. apply Z.eqb_eq in En. destruct (is_required g) eqn:Rg.
    + rewrite has_set_bit by assumption. rewrite En, (Z.eqb_sym n). destruct (f_num f =? n); [now rewrite orb_true_r|reflexivity].
    + replace (f_num f =? n) with false; [unfold has_set; now rewrite Rg|].
      symmetry. apply Z.eqb_neq. intros E2. rewrite <- En in E2. apply (wf_num_inj sc m f g W Hf Hg) in E2. congruence.
  - replace (f_num f =? n) with false; [reflexivity|]. symmetry. apply Z.eqb_neq. intros <-.
    rewrite (find_field_in sc m f W Hf) in E. discriminate.
Qed.

Lemma marksn_all m nums : has_all (md_of sc m) (marksn sc m nums (has_init (md_of sc m))) = true <->
  forall f, In f (md_fields (md_of sc m)) -> is_required f = true -> In (f_num f) nums.
Proof.
  rewrite has_all_iff. split; intros H f Hf Rf; specialize (H f Hf Rf).
  - rewrite marksn_bit, has_init_bit, orb_false_r in H by auto. apply existsb_exists in H as (n & Hn & E).
    apply Z.eqb_eq in E. now rewrite E.
  - rewrite marksn_bit by auto. apply orb_true_iff. left. apply existsb_exists. exists (f_num f). split; [assumption|apply Z.eqb_refl].
Qed.

Lemma rec_le n N : (N <= n)%nat -> forall m buf v, (length buf < N)%nat -> bytes_ok buf = true -> small buf -> target sc m v ->
  agree (target sc m) (um_msg sc N m buf v) (um_msg sc n m buf v).
Proof. intros. apply um_msg_ok; auto. lia. Qed.

Lemma view_pre a b : bytes_ok (a ++ b) = true -> small (a ++ b) -> view a (a ++ b) 0 0 a b.
Proof.
  intros B S. repeat split; auto.
  - exists []. auto.
  - exists []. auto.
  - rewrite bytes_ok_app in B. now apply andb_true_iff in B.
  - unfold small in *. rewrite zlen_app in S. pose proof (zlen_nonneg b). lia.
Qed.
Lemma view_suf a b : bytes_ok (a ++ b) = true -> small (a ++ b) -> view b (a ++ b) 0 (zlen a) b [].
Proof.
  intros B S. repeat split; auto.
  - exists []. auto.
  - exists a. now rewrite app_nil_r.
  - rewrite bytes_ok_app in B. now apply andb_true_iff in B.
  - unfold small in *. rewrite zlen_app in S. pose proof (zlen_nonneg a). lia.
Qed.

(** The loop on [a ++ b] after an accepted [a]. *)
Lemma concat_steps m a b v v1 : bytes_ok (a ++ b) = true -> small (a ++ b) -> target sc m v ->
  UnmarshalVT sc m a v = Ok v1 -> target sc m v1 /\
  exists k nums, (k <= length a)%nat /\
    steps sc m (rc (length (a ++ b))) (a ++ b) k (v, 0, has_init (md_of sc m))
      (v1, zlen a, marksn sc m nums (has_init (md_of sc m))) /\
    forall f, In f (md_fields (md_of sc m)) -> is_required f = true -> In (f_num f) nums.
Proof.
  intros B S T E. pose proof (view_pre _ _ B S) as V. unfold UnmarshalVT in E. cbn [um_msg] in E. unfold um_body in E.
  assert (bytes_ok a = true) as Ba by (rewrite bytes_ok_app in B; now apply andb_true_iff in B).
  destruct (um_loop_par sc W U (length a) _ _ (rec_le (length (a ++ b)) (length a) ltac:(rewrite app_length; lia))
    m (Datatypes.S (length a)) (Datatypes.S (length a)) _ _ _ _ _ _ v (has_init (md_of sc m)) V Ba B ltac:(lia) T ltac:(lia) ltac:(lia))
    as [(v' & has' & k & Hk & T' & E1 & _ & St)|(e & st & E1 & _)]; rewrite E1 in E; [|discriminate].
  cbn [rbind] in E. destruct (has_all (md_of sc m) has') eqn:HA; cbn [negb] in E; [|discriminate].
  destruct (zlen a <? 0 + zlen a); [discriminate|]. injection E as ->. split; [assumption|].
  cbn [Z.add] in St. destruct (steps_has _ _ _ _ _ _ _ _ _ _ St) as (nums & -> & _). exists k, nums.
  split; [assumption|]. split; [assumption|]. now apply marksn_all.
Qed.

Lemma concat_ok m a b v v1 v2 : bytes_ok (a ++ b) = true -> small (a ++ b) -> target sc m v ->
  UnmarshalVT sc m a v = Ok v1 -> UnmarshalVT sc m b v1 = Ok v2 -> UnmarshalVT sc m (a ++ b) v = Ok v2.
Proof.
  intros B S T E1 E2. destruct (concat_steps _ _ _ _ _ B S T E1) as (T1 & k & nums & Hk & St & HR).
  pose proof (view_suf _ _ B S) as V.
  assert (bytes_ok b = true) as Bb by (rewrite bytes_ok_app in B; now apply andb_true_iff in B).
  unfold UnmarshalVT in E2. cbn [um_msg] in E2. unfold um_body in E2.
  destruct (um_loop_par sc W U (length b) _ _ (rec_le (length (a ++ b)) (length b) ltac:(rewrite app_length; lia))
    m (Datatypes.S (length b)) (Datatypes.S (length b)) _ _ _ _ _ _ v1 (has_init (md_of sc m)) V Bb B ltac:(lia) T1 ltac:(lia) ltac:(lia))
    as [(v' & has' & k2 & Hk2 & T' & E3 & _ & St2)|(e & st & E3 & _)]; rewrite E3 in E2; [|discriminate].
  cbn [rbind] in E2. destruct (has_all (md_of sc m) has') eqn:HA; cbn [negb] in E2; [|discriminate].
  destruct (zlen b <? 0 + zlen b); [discriminate|]. injection E2 as ->.
  destruct (steps_has _ _ _ _ _ _ _ _ _ _ St2) as (nums2 & _ & St3).
  apply UnmarshalVT_steps; auto. exists (k + k2)%nat, (marksn sc m (nums ++ nums2) (has_init (md_of sc m))). split.
  - eapply steps_app; [exact St|]. rewrite zlen_app. unfold marksn. rewrite fold_left_app. apply St3.
  - apply marksn_all. intros f Hf Rf. rewrite in_app_iff. left. auto.
Qed.

Lemma has_init_nil m : (forall f, In f (md_fields (md_of sc m)) -> is_required f = false) -> has_init (md_of sc m) = [].
Proof.
  intros H. unfold has_init, required_numbers.
  replace (filter is_required (md_fields (md_of sc m))) with (@nil fdesc); [reflexivity|].
  induction (md_fields (md_of sc m)) as [|f l IH]; [reflexivity|]. cbn. rewrite (H f) by now left. apply IH. intros; apply H; now right.
Qed.

Lemma concat_err m a b v v1 e st : bytes_ok (a ++ b) = true -> small (a ++ b) -> target sc m v ->
  (forall f, In f (md_fields (md_of sc m)) -> is_required f = false) ->
  UnmarshalVT sc m a v = Ok v1 -> UnmarshalVT sc m b v1 = Err e st ->
  exists e', UnmarshalVT sc m (a ++ b) v = Err e' st.
Proof.
  intros B S T NR E1 E2. destruct (concat_steps _ _ _ _ _ B S T E1) as (T1 & k & nums & Hk & St & HR).
  pose proof (view_suf _ _ B S) as V.
  assert (bytes_ok b = true) as Bb by (rewrite bytes_ok_app in B; now apply andb_true_iff in B).
  assert (marksn sc m nums (has_init (md_of sc m)) = has_init (md_of sc m)) as Em.
  { pose proof (marksn_length m nums (has_init (md_of sc m))) as L. rewrite (has_init_nil m NR) in *. now destruct (marksn _ _ _ _). }
  rewrite Em in St.
  unfold UnmarshalVT in *. cbn [um_msg] in *. unfold um_body in *.
  rewrite (steps_loop _ _ _ _ _ _ _ _ _ _ _ _ St) by (rewrite app_length; lia).
  assert (has_all (md_of sc m) (has_init (md_of sc m)) = true) as HA0.
  { apply has_all_iff. intros f Hf Rf. rewrite (NR f Hf) in Rf. discriminate. }
  destruct (um_loop_par sc W U (length b) _ _ (rec_le (length (a ++ b)) (length b) ltac:(rewrite app_length; lia))
    m (Datatypes.S (length b)) (Datatypes.S (length (a ++ b)) - k) _ _ _ _ _ _ v1 (has_init (md_of sc m)) V Bb B ltac:(lia) T1 ltac:(lia) ltac:(rewrite app_length; lia))
    as [(v' & has' & k2 & Hk2 & T' & E3 & _ & St2)|(e1 & st1 & E3 & T' & X)]; rewrite E3 in E2.
  - cbn [rbind] in E2. destruct (steps_has _ _ _ _ _ _ _ _ _ _ St2) as (nums2 & -> & St3).
    replace (has_all _ _) with true in E2.
    2:{ symmetry. apply marksn_all. intros f Hf Rf. rewrite (NR f Hf) in Rf. discriminate. }
    cbn [negb] in E2. rewrite Z.add_0_l, Z.ltb_irrefl in E2. discriminate.
  - cbn [rbind] in E2. injection E2 as <- <-. destruct (X eq_refl) as [e' ->]. exists e'. reflexivity.
Qed.

(** The loop after some conforming records. *)
Lemma after_fields m p rest v v1 nums : dec_fields sc m p v v1 nums -> bytes_ok (p ++ rest) = true -> small (p ++ rest) ->
  target sc m v -> target sc m v1 /\
  exists k, (k <= length p)%nat /\
    steps sc m (rc (length (p ++ rest))) (p ++ rest) k (v, 0, has_init (md_of sc m))
      (v1, zlen p, marksn sc m nums (has_init (md_of sc m))) /\
    UnmarshalVT sc m (p ++ rest) v =
      (do r <- um_loop sc (rc (length (p ++ rest))) env (Datatypes.S (length (p ++ rest)) - k) m (p ++ rest) (zlen p) v1
                 (marksn sc m nums (has_init (md_of sc m)));
       let '(v, i, has) := r in
       if negb (has_all (md_of sc m) has) then Err ERequired v else
       if zlen (p ++ rest) <? i then Err EUnexpectedEOF v else Ok v).
Proof.
  intros D B S T. destruct (dec_ok sc W U) as (_ & _ & PF & _). specialize (PF _ _ _ _ _ D T (length (p ++ rest)) [] rest (has_init (md_of sc m))).
  destruct PF as (k & Hk & T' & St); auto. split; [assumption|]. exists k. split; [assumption|].
  cbn [app] in St. change (zlen (@nil Z)) with 0 in St. cbn [Z.add] in St. split; [assumption|].
  unfold UnmarshalVT. cbn [um_msg]. unfold um_body.
  now rewrite (steps_loop _ _ _ _ _ _ _ _ _ _ _ _ St) by (rewrite app_length; lia).
Qed.

Lemma fields_target m p v v1 nums : dec_fields sc m p v v1 nums -> bytes_ok p = true -> small p -> target sc m v -> target sc m v1.
Proof.
  intros D B S T. destruct (after_fields m p [] v v1 nums D) as [T1 _]; rewrite ?app_nil_r; auto.
Qed.

(** Conforming input, all of it. *)
Lemma fields_result m bs v v' nums : dec_fields sc m bs v v' nums -> bytes_ok bs = true -> small bs -> target sc m v ->
  UnmarshalVT sc m bs v =
  if has_all (md_of sc m) (marksn sc m nums (has_init (md_of sc m))) then Ok v' else Err ERequired v'.
Proof.
  intros D B S T. destruct (after_fields m bs [] v v' nums D) as (T' & k & Hk & _ & E); rewrite ?app_nil_r in *; auto.
  rewrite E. destruct (Datatypes.S (length bs) - k)%nat eqn:Ek; [lia|]. cbn [um_loop]. rewrite Z.ltb_irrefl. cbn [rbind].
  rewrite Z.ltb_irrefl. now destruct (has_all _ _).
Qed.

(** An iteration that fails after some conforming records. *)
Lemma step_err m p rest v v1 nums e st : dec_fields sc m p v v1 nums -> rest <> [] -> bytes_ok (p ++ rest) = true ->
  small (p ++ rest) -> target sc m v ->
  um_step sc (rc (length (p ++ rest))) env m (p ++ rest) (zlen p) v1 (marksn sc m nums (has_init (md_of sc m))) = Err e st ->
  UnmarshalVT sc m (p ++ rest) v = Err e st.
Proof.
  intros D Nr B S T E. destruct (after_fields m p rest v v1 nums D B S T) as (_ & k & Hk & _ & ->).
  destruct (Datatypes.S (length (p ++ rest)) - k)%nat eqn:Ek; [rewrite app_length in Ek; lia|]. cbn [um_loop].
  replace (zlen p <? zlen (p ++ rest)) with true.
  - now rewrite E.
  - symmetry. apply Z.ltb_lt. rewrite zlen_app. destruct rest as [|x r]; [contradiction|]. rewrite zlen_cons.
    pose proof (zlen_nonneg r). lia.
Qed.

(** A length prefix that exceeds the input. *)
Lemma decodeLen_bad b p l rest : is_varint l = true -> zlen l <= 10 -> bytes_ok (l ++ rest) = true -> small (p ++ l ++ rest) ->
  zlen rest < vval l mod 18446744073709551616 -> exists e, decodeLen b (p ++ l ++ rest) (zlen p) = Err e tt.
Proof.
  intros V L B S H. destruct (decodeLen_any b p (l ++ rest) B S) as [(l' & q & s & E & (V' & L' & M) & _)|(_ & X)]; [|assumption].
  destruct (is_varint_prefix l l' rest (q ++ s) V V' E) as [<- ->]. rewrite zlen_app in H. pose proof (zlen_nonneg s). lia.
Qed.

Lemma Skip_bad t num l rest : is_tag t num 2 -> is_varint l = true -> zlen l <= 10 -> bytes_ok (t ++ l ++ rest) = true -> small (t ++ l ++ rest) ->
  zlen rest < vval l mod 18446744073709551616 ->
  forall r s n w, t ++ l ++ rest = r ++ s -> ~ record false n w r.
Proof.
  intros Ht V L B S H r s n w E R. pose proof Ht as (Vt & _).
  assert (forall t' r' n' w', is_tag t' n' w' -> t ++ l ++ rest = t' ++ r' -> t = t' /\ l ++ rest = r' /\ w' = 2) as D.
  { intros t' r' n' w' Ht' E'. pose proof Ht' as (Vt' & _). destruct (is_varint_prefix t t' _ _ Vt Vt' E') as [<- ->].
    split; [reflexivity|]. split; [reflexivity|]. rewrite <- (tag_wt _ _ _ Ht), <- (tag_wt _ _ _ Ht'). reflexivity. }
  destruct R as [num0 t0 v0 H0|num0 t0 b H0|num0 t0 l0 b H0 HL|num0 t0 body e n' H0|num0 t0 b H0]; rewrite <- app_assoc in E;
    destruct (D _ _ _ _ H0 E) as (<- & E2 & E3); try discriminate.
  rewrite <- app_assoc in E2. destruct HL as (VL & _ & M).
  destruct (is_varint_prefix l l0 _ _ V VL E2) as [<- ->]. rewrite zlen_app in H. pose proof (zlen_nonneg s). lia.
Qed.

Lemma hostile_length m p t num l rest v v1 nums : dec_fields sc m p v v1 nums -> is_tag t num 2 ->
  is_varint l = true -> zlen l <= 10 -> zlen rest < vval l mod 18446744073709551616 ->
  bytes_ok (p ++ t ++ l ++ rest) = true -> small (p ++ t ++ l ++ rest) -> target sc m v ->
  exists e, UnmarshalVT sc m (p ++ t ++ l ++ rest) v = Err e v1.
Proof.
  intros D Ht V L H B S T. pose proof (is_tag_ne _ _ _ Ht) as Nt.
  assert (bytes_ok (t ++ l ++ rest) = true /\ bytes_ok (l ++ rest) = true) as [B1 B2].
  { rewrite !bytes_ok_app, !andb_true_iff in *. tauto. }
  destruct (fun q => after_fields m p (t ++ l ++ rest) v v1 nums D B S q) as [T1 _]; [assumption|].
  pose proof (step_err m p (t ++ l ++ rest) v v1 nums) as SE.
  assert (exists e, um_step sc (rc (length (p ++ t ++ l ++ rest))) env m (p ++ t ++ l ++ rest) (zlen p) v1
    (marksn sc m nums (has_init (md_of sc m))) = Err e v1) as [e E].
  2:{ exists e. apply SE; auto. now apply app_ne. }
  clear SE. unfold um_step. rewrite (tag_read t _ _ p (l ++ rest) Ht). cbn [lift rbind].
  rewrite (tag_wt _ _ _ Ht), (tag_num _ _ _ Ht). change (2 =? 4) with false. cbv iota zeta.
  destruct (s32 num <=? 0); [eexists; reflexivity|].
  destruct (find_field (s32 num) _) as [f|] eqn:Ef.
  - assert (forall b, exists e, decodeLen b (p ++ t ++ l ++ rest) (zlen p + zlen t) = Err e tt) as DL.
    { intros b. rewrite <- zlen_app, app_assoc. apply decodeLen_bad; auto. now rewrite <- app_assoc. }
    assert (exists e, um_field sc (rc (length (p ++ t ++ l ++ rest))) env (md_of sc m) f (u64 (vval t)) (p ++ t ++ l ++ rest) (zlen p + zlen t) v1 = Err e v1) as [e ->];
      [|eexists; reflexivity].
    unfold um_field. rewrite (tag_wt _ _ _ Ht). destruct (f_ty f) as [lbl k|kk vk].
    + assert (2 =? ProtoWireType k = true -> exists e, fieldItem sc (rc (length (p ++ t ++ l ++ rest))) env (md_of sc m) f lbl k (u64 (vval t)) (p ++ t ++ l ++ rest) (zlen p + zlen t) v1 = Err e v1) as FI.
      { intros Ek. unfold fieldItem, message_item. destruct k; try discriminate Ek; cbn [classify].
        - destruct (DL true) as [e ->]. exists e. reflexivity.
        - destruct (DL false) as [e ->]. exists e. reflexivity.
        - destruct (DL false) as [e ->]. exists e. reflexivity. }
      destruct (packable lbl k); destruct (2 =? ProtoWireType k); try (now apply FI); [|eexists; reflexivity].
      change (2 =? 2) with true. cbv iota. destruct (DL false) as [e ->]. exists e. reflexivity.
    + change (2 =? 2) with true. cbv iota. unfold map_item. destruct (DL false) as [e ->]. exists e. reflexivity.
  - assert (exists e, um_unknown sc m (s32 num) (p ++ t ++ l ++ rest) (zlen p) v1 = Err e v1) as [e ->]; [|eexists; reflexivity].
    unfold um_unknown. rewrite zslice_suf. cbn [orpanic rbind].
    assert (view (p ++ t ++ l ++ rest) (p ++ t ++ l ++ rest) (zlen p) (zlen p) (t ++ l ++ rest) []) as VV.
    { apply (view_adv _ _ 0 0 p). now apply view_self. }
    destruct (Skip_step _ _ _ _ _ _ VV) as [(r & s & n & w & E & R & _)|[(n & E & Hn & Hl & Hx & _)|(e & E)]].
    + destruct (Skip_bad t num l rest Ht V L B1) with (r := r) (s := s) (n := n) (w := w); auto.
      unfold small in *. rewrite zlen_app in S. pose proof (zlen_nonneg p). lia.
    + rewrite E. cbn [lift rbind]. replace (n <? 0) with false by lia. cbn [orb].
      destruct (s64 (zlen p + n) <? 0) eqn:Es; [eexists; reflexivity|].
      destruct Hx as [Hx|Hx]; [lia|]. replace (zlen (p ++ t ++ l ++ rest) <? s64 (zlen p + n)) with true by lia.
      eexists. reflexivity.
    + rewrite E. cbn [lift rbind]. eexists. reflexivity.
Qed.

(** A truncated conforming input is accepted only at a record boundary. *)
Lemma prefix_steps m q bs v v' nums : dec_fields sc m bs v v' nums -> forall pre p k has v1 has1, bs = p ++ q ->
  bytes_ok (pre ++ bs) = true -> small (pre ++ bs) -> target sc m v ->
  steps sc m (rc (length (pre ++ p))) (pre ++ p) k (v, zlen pre, has) (v1, zlen (pre ++ p), has1) ->
  exists n1 n2, dec_fields sc m p v v1 n1 /\ dec_fields sc m q v1 v' n2 /\ nums = n1 ++ n2.
Proof.
  induction 1 as [m v|m num c bs v v2 v' nums R D IH]; intros pre p k has v1 has1 E B S T St.
  - symmetry in E. apply app_eq_nil in E as [-> ->]. rewrite app_nil_r in St.
    inversion St as [|? ? ? ? ? ? Hi]; subst; [|lia]. exists [], []. repeat split; constructor.
  - destruct p as [|x p0].
    + cbn [app] in E. subst q. rewrite app_nil_r in St. inversion St as [|? ? ? ? ? ? Hi]; subst; [|lia].
      exists [], (num :: nums). repeat split; [constructor|]. econstructor; eauto.
    + set (p := x :: p0) in *. inversion St as [|? ? ? ? [[v3 i3] has3] ? Hi Es Hs]; subst.
      { exfalso. match goal with H : zlen pre = zlen (pre ++ p) |- _ => rewrite zlen_app in H; unfold p in H; rewrite zlen_cons in H; pose proof (zlen_nonneg p0); lia end. }
      assert (pre ++ c ++ bs = (pre ++ p) ++ q) as Ed by (rewrite <- app_assoc; now f_equal).
      assert (bytes_ok (pre ++ p) = true) as Bp by (rewrite Ed, bytes_ok_app in B; now apply andb_true_iff in B).
      assert (view (pre ++ p) (pre ++ c ++ bs) (zlen pre) (zlen pre) p q) as V.
      { repeat split.
        - exists pre. auto.
        - exists pre. split; [now rewrite E|reflexivity].
        - rewrite bytes_ok_app in Bp. now apply andb_true_iff in Bp.
        - unfold small in *. rewrite Ed, zlen_app in S. pose proof (zlen_nonneg q). lia.
        - assumption. }
      assert (length (pre ++ p) <= length (pre ++ c ++ bs))%nat as Ll by (rewrite Ed, (app_length (pre ++ p)); lia).
      destruct (dec_ok sc W U) as (_ & _ & _ & PR & _).
      destruct (PR _ _ _ _ _ R T (length (pre ++ c ++ bs)) pre bs has B S ltac:(lia)) as [Nc Ec].
      destruct (um_step_par sc W U (length (pre ++ p)) _ _ (rec_le (length (pre ++ c ++ bs)) (length (pre ++ p)) Ll) m _ _ _ _ _ _ v has V Bp B
        ltac:(rewrite app_length; lia) T) as [(c' & s & v4 & has4 & Ep & Nc' & T4 & E1 & E2)|(e & st & E1 & _)]; rewrite E1 in Es; [|discriminate].
      injection Es as <- <- <-. rewrite Ec in E2. injection E2 as Ev2 Ei Eh.
      assert (c' = c /\ bs = s ++ q) as [-> ->].
      { rewrite Ep, <- app_assoc in E. assert (length c = length c') as Lc by (unfold zlen in Ei; lia).
        revert Lc E. clear. revert c'. induction c as [|a c IHc]; intros [|a' c'] Lc E; try discriminate; [auto|].
        cbn [app] in E. injection E as -> E. destruct (IHc c' ltac:(cbn in Lc; lia) E) as [-> ->]. auto. }
      subst v4 has4. rewrite Ep in *. rewrite app_assoc in Hs. rewrite <- zlen_app in Hs.
      rewrite app_assoc in B, S.
      destruct (IH (pre ++ c) s _ _ _ _ eq_refl B S T4 Hs) as (n1 & n2 & D1 & D2 & ->).
      exists (num :: n1), n2. split; [econstructor; eauto|]. split; [assumption|reflexivity].
Qed.

Lemma prefix_boundary m p q v v' v1 nums : dec_fields sc m (p ++ q) v v' nums -> bytes_ok (p ++ q) = true -> small (p ++ q) ->
  target sc m v -> UnmarshalVT sc m p v = Ok v1 ->
  exists n1 n2, dec_fields sc m p v v1 n1 /\ dec_fields sc m q v1 v' n2 /\ nums = n1 ++ n2.
Proof.
  intros D B S T E. assert (bytes_ok p = true) as Bp by (rewrite bytes_ok_app in B; now apply andb_true_iff in B).
  assert (small p) as Sp by (unfold small in *; rewrite zlen_app in S; pose proof (zlen_nonneg q); lia).
  apply UnmarshalVT_steps in E as (k & has & St & HA); auto.
  eapply (prefix_steps m q (p ++ q) v v' nums D [] p); eauto.
Qed.
End Merge.
