(** The message loop of UnmarshalVT: what one iteration changes, the record of
    required fields, and concatenated input. *)
From Coq Require Import ZArith List Bool Lia.
From Verif Require Import Base BaseFacts Schema Value Helpers Unmarshal WireSpec Typing RecordSpec MsgSpec
  VarintFacts SkipFacts NumFacts ViewFacts TargetFacts UmFacts.
Import ListNotations.
Open Scope Z_scope.

(** ** The bit set of required fields *)
Definition has_bit (md : mdesc) (has : list Z) (f : fdesc) : bool :=
  let bit := field_bit (required_numbers md) (f_num f) in
  Z.testbit (nth (bit / 64) has 0) (Z.of_nat (bit mod 64)).

Lemma land_bit x n : 0 <= n -> (Z.land x (Z.shiftl 1 n) =? 0) = negb (Z.testbit x n).
Proof.
  intros Hn. destruct (Z.testbit x n) eqn:E; cbn [negb].
  - apply Z.eqb_neq. intros H. assert (Z.testbit (Z.land x (Z.shiftl 1 n)) n = false) as F by (rewrite H; apply Z.bits_0).
    rewrite Z.land_spec, E, Z.shiftl_spec, Z.sub_diag in F by assumption. discriminate.
  - apply Z.eqb_eq. apply Z.bits_inj'. intros j Hj. rewrite Z.land_spec, Z.bits_0, Z.shiftl_spec by assumption.
    destruct (Z.eq_dec j n) as [->|Ne]; [now rewrite E|].
    replace (Z.testbit 1 (j - n)) with false; [apply andb_false_r|].
    destruct (Z_lt_dec (j - n) 0); [now rewrite Z.testbit_neg_r by lia|].
    change 1 with (2 ^ 0). rewrite Z.pow2_bits_false by lia. reflexivity.
Qed.

Lemma has_all_iff md has : has_all md has = true <->
  forall f, In f (md_fields md) -> is_required f = true -> has_bit md has f = true.
Proof.
  unfold has_all. rewrite forallb_forall. unfold has_bit. split.
  - intros H f Hf R. specialize (H f). rewrite filter_In in H. specialize (H (conj Hf R)). cbv zeta in H.
    rewrite land_bit, negb_involutive in H by lia. exact H.
  - intros H f Hf. apply filter_In in Hf as [Hf R]. cbv zeta. rewrite land_bit, negb_involutive by lia. now apply H.
Qed.

Lemma field_bit_lt l n : In n l -> (field_bit l n < length l)%nat.
Proof.
  induction l as [|x l IH]; [intros []|]. cbn. destruct (x =? n) eqn:E; [lia|]. intros [->|H]; [lia|]. specialize (IH H). lia.
Qed.
Lemma field_bit_inj l a b : In a l -> In b l -> field_bit l a = field_bit l b -> a = b.
Proof.
  induction l as [|x l IH]; [intros []|]. cbn.
  destruct (x =? a) eqn:Ea, (x =? b) eqn:Eb; intros H1 H2 E; try discriminate; try lia.
  apply IH; [destruct H1; [lia|assumption]|destruct H2; [lia|assumption]|congruence].
Qed.

Lemma required_in md f : In f (md_fields md) -> is_required f = true -> In (f_num f) (required_numbers md).
Proof. intros H R. apply in_map, filter_In. auto. Qed.

Lemma has_set_length md f has : length (has_set md f has) = length has.
Proof. unfold has_set. destruct (is_required f); [apply list_set_length|reflexivity]. Qed.

Lemma has_init_room md f : In f (md_fields md) -> is_required f = true ->
  (field_bit (required_numbers md) (f_num f) / 64 < length (has_init md))%nat.
Proof.
  intros H R. pose proof (field_bit_lt _ _ (required_in md f H R)) as L. unfold has_init.
  destruct (required_numbers md) as [|x l] eqn:E; [cbn in L; lia|]. rewrite repeat_length.
  set (b := field_bit (x :: l) (f_num f)) in *.
  assert (b / 64 <= (length (x :: l) - 1) / 64)%nat by (apply Nat.div_le_mono; lia). lia.
Qed.

Lemma has_init_bit md f : has_bit md (has_init md) f = false.
Proof.
  unfold has_bit, has_init. destruct (required_numbers md) as [|x l].
  - destruct (field_bit [] (f_num f) / 64)%nat; cbn; try reflexivity; apply Z.testbit_0_l.
  - match goal with |- Z.testbit (nth ?a (repeat _ ?b) _) _ = _ => generalize a b end.
    intros a b. replace (nth a (repeat 0 b) 0) with 0 by (symmetry; apply nth_repeat). apply Z.testbit_0_l.
Qed.

Lemma has_set_bit md f g has : In f (md_fields md) -> is_required f = true ->
  In g (md_fields md) -> is_required g = true -> length has = length (has_init md) ->
  has_bit md (has_set md f has) g = (f_num f =? f_num g) || has_bit md has g.
Proof.
  intros Hf Rf Hg Rg L. unfold has_bit, has_set. rewrite Rf.
  set (a := field_bit (required_numbers md) (f_num f)). set (b := field_bit (required_numbers md) (f_num g)).
  pose proof (has_init_room md f Hf Rf) as La. fold a in La. rewrite <- L in La.
  assert (a = b <-> f_num f = f_num g) as AB.
  { split; [apply field_bit_inj; now apply required_in|unfold a, b; now intros ->]. }
  destruct (Nat.eq_dec (a / 64) (b / 64)) as [E|E].
  - rewrite <- E, nth_list_set_eq by assumption. rewrite Z.lor_spec, Z.shiftl_spec by lia. rewrite orb_comm. f_equal.
    destruct (Nat.eq_dec (a mod 64) (b mod 64)) as [E2|E2].
    + rewrite E2, Z.sub_diag. cbn. symmetry. apply Z.eqb_eq, AB.
      rewrite (Nat.div_mod a 64), (Nat.div_mod b 64) by lia. lia.
    + replace (f_num f =? f_num g) with false by (symmetry; apply Z.eqb_neq; intros Q; apply AB in Q; congruence).
      destruct (Z_lt_dec (Z.of_nat (b mod 64) - Z.of_nat (a mod 64)) 0); [now rewrite Z.testbit_neg_r by lia|].
      change 1 with (2 ^ 0). rewrite Z.pow2_bits_false by lia. reflexivity.
  - rewrite nth_list_set_neq by assumption.
    replace (f_num f =? f_num g) with false by (symmetry; apply Z.eqb_neq; intros Q; apply AB in Q; congruence).
    reflexivity.
Qed.

Lemma has_set_mono md f g has : In f (md_fields md) -> In g (md_fields md) -> is_required g = true ->
  length has = length (has_init md) -> has_bit md has g = true -> has_bit md (has_set md f has) g = true.
Proof.
  intros Hf Hg Rg L H. destruct (is_required f) eqn:Rf.
  - rewrite has_set_bit by assumption. rewrite H. apply orb_true_r.
  - unfold has_set. now rewrite Rf.
Qed.

(** ** One iteration *)

(** [c] starts with a tag of field number [num] (the code keeps 32 bits of it). *)
Definition starts (c : list Z) (num : Z) : Prop :=
  exists t r, c = t ++ r /\ is_varint t = true /\ zlen t <= 10 /\
    num = s32 (vval t mod 18446744073709551616 / 8).

(** What a record of field [f] may change. *)
Definition field_frame (f : fdesc) (v v' : val) : Prop :=
  exists s u h s' h', v = VMsg s u h /\ v' = VMsg s' u h' /\
    (forall j, j <> f_slot f -> slot s' j = slot s j) /\
    (is_required f = true -> slot s' (f_slot f) <> VNil) /\
    (is_oneof f = true -> exists x, slot s' (f_slot f) = VOneof (f_num f) x).

Section Step.
Variable sc : schema.
Hypothesis W : wf_schema sc = true.
Hypothesis U : up_dec_ok sc.
Variable N : nat.
Variable rec : nat -> list Z -> val -> res val val.
Hypothesis Hrec : forall m buf v, (length buf < N)%nat -> bytes_ok buf = true -> small buf -> target sc m v ->
  agree (target sc m) (rec m buf v) (rec m buf v).
Notation env := (safe_env sc).
Notation rc := (fun _ : Z => rec).
Variable m : nat.
Notation md := (md_of sc m).

Lemma set_frame f s u h h' x : In f (md_fields md) -> target sc m (VMsg s u h) ->
  (is_required f = true -> x <> VNil) -> (is_oneof f = true -> exists y, x = VOneof (f_num f) y) ->
  field_frame f (VMsg s u h) (VMsg (list_set s (f_slot f) x) u h').
Proof.
  intros Hf T R O. pose proof (wf_slot sc m f W Hf). apply target_iff in T as (L & _).
  exists s, u, h, (list_set s (f_slot f) x), h'. split; [reflexivity|]. split; [reflexivity|].
  rewrite slot_set_eq by lia. split; [|auto]. intros j Hj. apply slot_set_neq. congruence.
Qed.

Lemma store_frame f lbl k x v v' : In f (md_fields md) -> target sc m v -> f_ty f = TField lbl k ->
  store f lbl k x v = Some v' -> (classify k = CByt -> x <> VNil) -> field_frame f v v'.
Proof.
  intros Hf T Ty S Nx. destruct (target_vmsg _ _ _ T) as (s & u & h & ->).
  unfold store in S. cbn [set_slot get_slot] in S.
  assert (is_required f = match lbl with LRequired => true | _ => false end) as R by (unfold is_required; rewrite Ty; now destruct lbl).
  assert (is_oneof f = match lbl with LOneof => true | _ => false end) as O by (unfold is_oneof; rewrite Ty; now destruct lbl).
  destruct lbl; injection S as <-; apply set_frame; auto; rewrite ?R, ?O; try discriminate; eauto.
  intros _. destruct (classify k) eqn:K; try discriminate. auto.
Qed.

Lemma fieldItem_frame f lbl k wire data i rest v v' j : In f (md_fields md) -> f_ty f = TField lbl k ->
  (is_group k = true -> Z.land wire 7 = 3 /\ bytes_ok data = true) ->
  view data data i i rest [] -> (length rest <= N)%nat -> target sc m v ->
  fieldItem sc rc env md f lbl k wire data i v = Ok (v', j) -> field_frame f v v'.
Proof.
  intros Hf T HG V Ln Tv E.
  assert (forall r (mk : Z * Z -> res val (val * Z)), (do x <- r; mk x) = Ok (v', j) ->
    exists x, r = Ok x /\ mk x = Ok (v', j)) as B by (intros [] mk; cbn; intros; try discriminate; eauto).
  assert (forall (r : option val) z, (do x <- orpanic r; Ok (x, z)) = @Ok val _ (v', j) -> r = Some v') as BO.
  { intros [] z; cbn; intros; congruence. }
  assert (is_num k = true -> num_item f lbl k data i v = Ok (v', j) -> field_frame f v v') as M.
  { intros K H. apply num_item_inv in H as (x & _ & H). eapply store_frame; eauto. discriminate. }
  assert (forall b (mk : list Z -> val), (forall s, mk s <> VNil) ->
    (do r <- lift v (decodeLen b data i); let (i, post) := r in
      do s <- orpanic (zslice data i post); do v' <- orpanic (store f lbl k (mk s) v); Ok (v', post)) = Ok (v', j) ->
    field_frame f v v') as D.
  { intros b mk Hmk H. apply B in H as ((i1 & post) & _ & H). destruct (zslice data i1 post) as [q|]; [|discriminate].
    cbn [orpanic rbind] in H. apply BO in H. eapply store_frame; eauto. }
  unfold fieldItem in E.
  destruct k as [| | | | | | | | |mm|mm| | | | | | |]; cbn [classify] in E; try (apply M; [reflexivity|exact E]).
  - apply (D true VStr) in E; [assumption|discriminate].
  - destruct (HG eq_refl) as [Hw Bd]. destruct V as ((p & _ & ->) & _ & _ & S & _).
    destruct (group_loop_err sc f mm wire (zlen p) v Hw (Datatypes.S (length data)) data (zlen p) S Bd) with (rc := rc) as (e & E1);
      try apply zlen_nonneg; try (unfold zlen; lia). congruence.
  - unfold message_item in E. destruct (target_vmsg _ _ _ Tv) as (ss & u & h & ->).
    pose proof (wf_ty sc m f W Hf) as WT. rewrite T in WT. cbn in WT.
    destruct (decodeLen_view false _ _ _ _ _ _ V) as [(l & q & s & Er & Nl & L & Ed & _ & Z1 & Z2)|(e & Ed & X)];
      rewrite Ed in E; [|discriminate].
    cbn [lift rbind] in E. rewrite Z1 in E. cbn [orpanic rbind ue_alloc safe_env] in E.
    assert (forall b : bool, (if b then new_msg (md_of sc mm) else new_msg (md_of sc mm)) = new_msg (md_of sc mm)) as FR
      by now intros [].
    cbv zeta in E. rewrite !FR in E.
    pose proof (payload_len N l q s rest Er Nl Ln) as Lq. subst rest. destruct (view_payload _ _ _ _ _ _ _ _ V) as [Bq Sq].
    pose proof (fun x => decodeMessage_ok sc U N rec rec Hrec (i + zlen l) (i + zlen l) mm q x Lq Bq Sq) as DM.
    assert (is_required f = match lbl with LRequired => true | _ => false end) as R by (unfold is_required; rewrite T; now destruct lbl).
    assert (is_oneof f = match lbl with LOneof => true | _ => false end) as O by (unfold is_oneof; rewrite T; now destruct lbl).
    assert (forall tgt put r, nest (decodeMessage sc rc (i + zlen l) mm q tgt) put = Ok r -> target sc mm tgt ->
      exists x, target sc mm x /\ put x = Some r) as NEST.
    { intros tgt put r H Tt. destruct (DM tgt Tt) as [(x & Ex & _ & Tx)|(e & e' & x & Ex & _ & Tx)]; rewrite Ex in H; cbn [nest] in H;
        destruct (put x) eqn:Px; try discriminate. exists x. split; [assumption|]. congruence. }
    match type of E with (do x <- ?r; Ok (x, ?z)) = _ => assert (r = Ok v') as E1 by (destruct r; cbn in E; congruence) end.
    clear E. destruct lbl as [| | |p|].
    + rewrite andb_comm in WT. discriminate WT.
    + apply NEST in E1 as (x & Tx & [= <-]).
      * apply set_frame; auto; rewrite ?R, ?O; discriminate.
      * destruct (slot_sub sc m f _ _ mm ss u h Tv Hf T (or_introl eq_refl) eq_refl) as [->|Tx]; [now apply target_new|].
        destruct (target_vmsg _ _ _ Tx) as (? & ? & ? & Ex). rewrite Ex in *. assumption.
    + apply NEST in E1 as (x & Tx & [= <-]).
      * apply set_frame; auto; rewrite ?R, ?O; try discriminate. destruct (target_vmsg _ _ _ Tx) as (? & ? & ? & ->). discriminate.
      * destruct (slot_sub sc m f _ _ mm ss u h Tv Hf T (or_intror eq_refl) eq_refl) as [->|Tx]; [now apply target_new|].
        destruct (target_vmsg _ _ _ Tx) as (? & ? & ? & Ex). rewrite Ex in *. assumption.
    + assert (hid_ok sc m h) as Hh by (apply target_iff in Tv; tauto).
      destruct (list_grow_target sc W m f p _ mm h Hh Hf T eq_refl) as [G1 G2].
      destruct (list_grow sc md mm h (f_slot f)) as [tgt h']. cbn [fst snd] in *.
      apply NEST in E1 as (x & Tx & [= <-]); [|assumption]. apply set_frame; auto; rewrite ?R, ?O; discriminate.
    + set (keep := match slot ss (f_slot f) with VOneof n x => if n =? f_num f then Some x else None | _ => None end) in E1.
      destruct keep as [x|] eqn:Ek; unfold keep in Ek.
      * assert (slot ss (f_slot f) = VOneof (f_num f) x) as Es.
        { destruct (slot ss (f_slot f)); try discriminate. destruct (num =? f_num f) eqn:En; [|discriminate].
          injection Ek as ->. f_equal. lia. }
        apply NEST in E1 as (x' & Tx & [= <-]).
        -- apply set_frame; auto; rewrite ?R, ?O; try discriminate. eauto.
        -- eapply slot_oneof; eauto.
      * destruct (DM _ (target_new sc W mm)) as [(x & Ex & _ & Tx)|(e & e' & x & Ex & _ & Tx)]; rewrite Ex in E1; [|discriminate].
        cbn in E1. injection E1 as <-. apply set_frame; auto; rewrite ?R, ?O; try discriminate. eauto.
  - apply (D false VBytes) in E; [assumption|discriminate].
Qed.

Lemma frame_trans f a b c : In f (md_fields md) -> is_required f = false -> is_oneof f = false ->
  field_frame f a b -> field_frame f b c -> field_frame f a c.
Proof.
  intros Hf R O (s & u & h & s1 & h1 & -> & -> & F1 & _) (s2 & u2 & h2 & s3 & h3 & E & -> & F2 & _).
  injection E as <- <- <-. exists s, u, h, s3, h3. repeat split; try congruence.
  intros j Hj. now rewrite F2, F1.
Qed.

Lemma packed_frame f lbl k wire : In f (md_fields md) -> f_ty f = TField lbl k -> is_group k = false ->
  is_required f = false -> is_oneof f = false ->
  forall fuel data i post rest v v' j, view data data i i rest [] -> (length rest <= N)%nat -> target sc m v ->
  packed_loop sc rc env fuel md f lbl k wire data i post v = Ok (v', j) -> field_frame f v v'.
Proof.
  intros Hf T G R O. induction fuel as [|fuel IH]; intros data i post rest v v' j V Ln Tv E; cbn [packed_loop] in E; [discriminate|].
  destruct (i <? post).
  - destruct (fieldItem_par sc W U N rec rec Hrec m f lbl k wire _ _ _ _ _ _ v Hf T ltac:(congruence) V Ln Tv)
      as [(c & s & v1 & -> & Nc & E1 & _ & T1)|(e & st & E1 & _)]; pose proof E1 as E2; rewrite E1 in E; [|discriminate].
    cbn [rbind fst snd] in E. rewrite app_length in Ln.
    apply fieldItem_frame with (rest := c ++ s) in E1; auto; [|congruence|rewrite app_length; lia].
    eapply frame_trans; eauto. apply (IH data (i + zlen c) post s v1 v' j); auto; [now apply view_adv|lia].
  - injection E as <- <-. destruct (target_vmsg _ _ _ Tv) as (s & u & h & ->).
    exists s, u, h, s, h. repeat split; congruence.
Qed.

Lemma um_field_frame f wire data i rest v v' j : In f (md_fields md) ->
  view data data i i rest [] -> bytes_ok data = true -> (length rest <= N)%nat -> target sc m v ->
  um_field sc rc env md f wire data i v = Ok (v', j) -> field_frame f v v'.
Proof.
  intros Hf V B Ln Tv E. unfold um_field in E. destruct (f_ty f) as [lbl k|kk vk] eqn:T.
  - assert (Z.land wire 7 = ProtoWireType k -> is_group k = true -> Z.land wire 7 = 3 /\ bytes_ok data = true) as HG.
    { intros -> G. destruct k; try discriminate G. auto. }
    destruct (packable lbl k) eqn:P; destruct (Z.land wire 7 =? ProtoWireType k) eqn:Ew; try discriminate;
      try (apply Z.eqb_eq in Ew; eapply fieldItem_frame; now eauto).
    destruct (Z.land wire 7 =? 2); [|discriminate].
    destruct (decodeLen_view false _ _ _ _ _ _ V) as [(l & q & s & Er & Nl & L & Ed & _ & Z1 & Z2)|(e & Ed & X)];
      rewrite Ed in E; [|discriminate]. cbn [lift rbind] in E. subst rest. rewrite app_length in Ln.
    unfold packable in P. destruct lbl; try discriminate. pose proof (wf_ty sc m f W Hf) as WT. rewrite T in WT. cbn in WT.
    eapply packed_frame with (rest := q ++ s) (i := i + zlen l); eauto.
    + destruct k; try reflexivity. rewrite !andb_false_r in WT. discriminate.
    + unfold is_required. now rewrite T.
    + unfold is_oneof. now rewrite T.
    + now apply view_adv.
    + lia.
  - destruct (Z.land wire 7 =? 2); [|discriminate]. unfold map_item in E.
    destruct (target_vmsg _ _ _ Tv) as (s & u & h & ->).
    destruct (decodeLen false data i) as [[i1 post]| | |]; try discriminate. cbn [lift rbind get_slot set_slot orpanic] in E.
    destruct (map_loop _ _ _ _ _ _ _ _ _ _ _) as [[[key value] i2]| | |]; try discriminate. cbn [lift rbind set_slot orpanic] in E.
    injection E as <- _.
    assert (forall (l : list val) n x y, list_set (list_set l n x) n y = list_set l n y) as LL.
    { induction l as [|a l IH]; intros [|n] x y; cbn; auto. now rewrite IH. }
    rewrite LL. apply set_frame; auto; unfold is_required, is_oneof; rewrite T; discriminate.
Qed.

(** One iteration: a record of a declared field, or one complete record of an
    undeclared one. *)
Inductive chunk : Z -> list Z -> val -> val -> Prop :=
| ch_field f c v v' : In f (md_fields md) -> starts c (f_num f) -> field_frame f v v' -> chunk (f_num f) c v v'
| ch_ext num n wt c v v' : (forall f, In f (md_fields md) -> f_num f <> num) -> starts c num -> record false n wt c -> num = s32 n -> 0 < num ->
    in_ext md num = true -> up_ext (sc_up sc) m c = Some v' -> chunk num c v v'
| ch_unknown num n wt c s u h : (forall f, In f (md_fields md) -> f_num f <> num) -> starts c num -> record false n wt c -> num = s32 n -> 0 < num ->
    in_ext md num = false -> chunk num c (VMsg s u h) (VMsg s (if md_keep md then u ++ c else u) h).

Definition mark (num : Z) (has : list Z) : list Z :=
  match find_field num (md_fields md) with Some f => has_set md f has | None => has end.

Lemma record_starts num wt r : record false num wt r -> exists t r', r = t ++ r' /\ is_tag t num wt.
Proof. intros []; eauto. Qed.

Lemma um_step_chunk data i rest v has st : view data data i i rest [] -> bytes_ok data = true ->
  (length rest <= N)%nat -> target sc m v -> um_step sc rc env m data i v has = Ok st ->
  exists c s num v', rest = c ++ s /\ c <> [] /\ st = (v', i + zlen c, mark num has) /\ target sc m v' /\ chunk num c v v'.
Proof.
  intros V B Ln Tv E. pose proof (um_step_par sc W U N rec rec Hrec m _ _ _ _ _ _ v has V B B Ln Tv) as P.
  rewrite E in P. destruct P as [(c & s & v' & has' & Er & Nc & T' & E1 & _)|(e & x & E1 & _)]; [|discriminate].
  injection E1 as ->. exists c, s. unfold um_step in E.
  assert (exists t r, rest = t ++ r /\ is_varint t = true /\ zlen t <= 10 /\ decodeVarint u64 0 data i = Ok (u64 (vval t), i + zlen t)) as (t & r & Et & Vt & Lt & Ed).
  { destruct V as ((p & -> & ->) & _ & Br & _). pose proof (decodeVarint_any u64 0 p rest conv_u64 Br) as X.
    destruct (decodeVarint u64 0 (p ++ rest) (zlen p)) as [[z j]| | |] eqn:Ed; try discriminate.
    inversion X as [bs ss Hb Hv Hl Heq| |]; subst. exists bs, ss. rewrite ?Z.lor_0_l; auto. }
  rewrite Ed in E. cbn [lift rbind] in E.
  destruct (Z.land (u64 (vval t)) 7 =? 4); [discriminate|].
  set (num := s32 (Z.shiftr (u64 (vval t)) 3)) in *. destruct (num <=? 0) eqn:En; [discriminate|].
  assert (num = s32 (vval t mod 18446744073709551616 / 8)) as Hnum by (unfold num; now rewrite shiftr3).
  exists num, v'. split; [assumption|]. split; [assumption|].
  destruct (find_field num (md_fields md)) as [f|] eqn:Ff.
  - pose proof Ff as Ff0. apply find_some in Ff as [Hf Efn]. assert (f_num f = num) as Efn' by lia.
    unfold mark. rewrite Ff0. subst rest. rewrite app_length in Ln. pose proof V as V0. rewrite Et in V0. apply view_adv in V0.
    destruct (um_field sc rc env md f (u64 (vval t)) data (i + zlen t) v) as [[v1 j]| | |] eqn:Eu; try discriminate.
    cbn [rbind fst snd] in E. injection E as <- E2 <-. split; [reflexivity|]. split; [assumption|].
    assert (length t + length r = length c + length s)%nat as Ll by (rewrite <- !app_length; congruence).
    assert (exists c2 s2, r = c2 ++ s2 /\ j = i + zlen t + zlen c2) as (c2 & s2 & Ec2 & Ej).
    { destruct (um_field_par sc W U N rec rec Hrec m f (u64 (vval t)) _ _ _ _ _ _ v Hf V0 B B ltac:(lia) Tv)
        as [(c2 & s2 & v2 & -> & N2 & E3 & _)|(e & st & E3 & _)]; rewrite Eu in E3; [|discriminate].
      injection E3 as -> ->. eauto. }
    assert (c = t ++ c2) as ->.
    { assert (zlen c = zlen (t ++ c2)) as El by (rewrite zlen_app; lia). rewrite Ec2, app_assoc in Et.
      assert (firstn (length c) (c ++ s) = firstn (length (t ++ c2)) ((t ++ c2) ++ s2)) as F2.
      { rewrite Et. f_equal. unfold zlen in El. lia. }
      now rewrite !firstn_app_len in F2. }
    rewrite <- Efn'. constructor; [assumption| |].
    + exists t, c2. rewrite Efn'. auto.
    + eapply um_field_frame; eauto. lia.
  - assert (forall f, In f (md_fields md) -> f_num f <> num) as ND.
    { intros f Hf Q. pose proof (find_none _ _ Ff f Hf) as F. cbv beta in F. lia. }
    unfold mark. rewrite Ff.
    destruct (um_unknown sc m num data i v) as [[v1 j]| | |] eqn:Eu; try discriminate.
    cbn [rbind fst snd] in E. injection E as <- -> <-. split; [reflexivity|]. split; [assumption|].
    unfold um_unknown in Eu. destruct (Skip_view _ _ _ _ _ _ V) as [Zs _]. rewrite Zs in Eu. cbn [orpanic rbind] in Eu.
    destruct (target_vmsg _ _ _ Tv) as (ss & u & h & ->).
    destruct (Skip_step _ _ _ _ _ _ V) as [(rr & s2 & n & wt & Es & R & Nr & Sk & _ & I1 & I2 & Hi & Hi')|[(n & Sn & Hn & Hl & H1 & H2)|(e & Se)]].
    + rewrite Sk in Eu. cbn [lift rbind] in Eu. rewrite I1 in Eu.
      pose proof (zlen_nonneg rr). pose proof (zlen_nonneg s2).
      replace ((zlen rr <? 0) || (i + zlen rr <? 0)) with false in Eu by lia.
      assert (zslice data i (i + zlen rr) = Some rr) as Zr.
      { destruct V as ((p & -> & ->) & _). rewrite Es. apply zslice_app. }
      destruct (zlen data <? i + zlen rr); [discriminate|]. rewrite Zr in Eu. cbn [orpanic rbind] in Eu.
      destruct (record_starts _ _ _ R) as (t' & r' & Er' & Tg').
      assert (t' = t) as ->.
      { pose proof Tg' as (Vt' & _). rewrite Es, Er', <- app_assoc in Et. now destruct (is_varint_prefix _ _ _ _ Vt' Vt Et). }
      assert (num = s32 n) as En2. { unfold num. now rewrite (tag_num _ _ _ Tg'). }
      assert (i + zlen rr = i + zlen c -> c = rr) as CR.
      { intros Ez. assert (zlen c = zlen rr) as El by lia.
        assert (firstn (length c) (c ++ s) = firstn (length rr) (rr ++ s2)) as F2.
        { rewrite <- Er, <- Es. f_equal. unfold zlen in El. lia. }
        now rewrite !firstn_app_len in F2. }
      assert (starts rr num) as Srr by (exists t, r'; auto).
      destruct (in_ext md num) eqn:Ei.
      * destruct (up_ext (sc_up sc) m rr) as [v2|] eqn:Ue; [|discriminate]. injection Eu as -> Ez.
        assert (c = rr) as -> by (apply CR; lia). eapply ch_ext; eauto. lia.
      * assert (v1 = VMsg ss (if md_keep md then u ++ rr else u) h /\ i + zlen rr = i + zlen c) as [-> Ez].
        { destruct (md_keep md); cbn in Eu; split; congruence. }
        assert (c = rr) as -> by (apply CR; lia). eapply ch_unknown; eauto. lia.
    + rewrite Sn in Eu. cbn [lift rbind] in Eu. destruct ((n <? 0) || (s64 (i + n) <? 0)) eqn:A; [discriminate|].
      replace (zlen data <? s64 (i + n)) with true in Eu by lia. discriminate.
    + rewrite Se in Eu. discriminate.
Qed.

(** A run of the loop, as a list of chunks (field number, bytes). *)
Inductive run : list (Z * list Z) -> val -> val -> Prop :=
| run_nil v : run [] v v
| run_cons num c cs v v1 v' : chunk num c v v1 -> run cs v1 v' -> run ((num, c) :: cs) v v'.

Definition marks (cs : list (Z * list Z)) (has : list Z) : list Z :=
  fold_left (fun h c => mark (fst c) h) cs has.

Lemma steps_run data n : forall v i has v' i' has' rest, view data data i i rest [] -> bytes_ok data = true ->
  (length rest <= N)%nat -> target sc m v -> steps sc m rc data n (v, i, has) (v', i', has') ->
  exists cs s, rest = concat (map snd cs) ++ s /\ i' = i + zlen (concat (map snd cs)) /\ run cs v v' /\ has' = marks cs has /\
    length cs = n /\ target sc m v'.
Proof.
  induction n as [|n IH]; intros v i has v' i' has' rest V B Ln Tv H; inversion H as [|? ? ? ? [[v1 i1] has1] ? Hi Es Hs]; subst.
  - exists [], rest. change (zlen (concat (map snd (@nil (Z * list Z))))) with 0. rewrite Z.add_0_r. repeat split; auto; try apply Tv. constructor.
  - destruct (um_step_chunk _ _ _ _ _ _ V B Ln Tv Es) as (c & s & num & v2 & -> & Nc & [= -> -> ->] & T2 & Ck).
    rewrite app_length in Ln.
    destruct (IH _ _ _ _ _ _ s (view_adv _ _ _ _ _ _ _ V) B ltac:(lia) T2 Hs) as (cs & s2 & -> & -> & R & -> & <- & T').
    exists ((num, c) :: cs), s2. cbn [map snd concat length]. rewrite zlen_app, app_assoc, Z.add_assoc. repeat split; auto; try apply T'.
    econstructor; eauto.
Qed.
End Step.

Section Top.
Variable sc : schema.
Hypothesis W : wf_schema sc = true.
Hypothesis U : up_dec_ok sc.

(** The loop inside UnmarshalVT. *)
Notation rc n := (fun _ : Z => um_msg sc n).

Lemma um_msg_rec n : forall m buf v, (length buf < n)%nat -> bytes_ok buf = true -> small buf -> target sc m v ->
  agree (target sc m) (um_msg sc n m buf v) (um_msg sc n m buf v).
Proof. intros. apply um_msg_ok; auto. Qed.

(** UnmarshalVT as a number of iterations. *)
Lemma UnmarshalVT_steps m data v v' : bytes_ok data = true -> small data -> target sc m v ->
  (UnmarshalVT sc m data v = Ok v' <->
   exists k has, steps sc m (rc (length data)) data k (v, 0, has_init (md_of sc m)) (v', zlen data, has) /\
     has_all (md_of sc m) has = true).
Proof.
  intros B S T. unfold UnmarshalVT. cbn [um_msg]. unfold um_body.
  pose proof (um_loop_par sc W U (length data) _ _ (um_msg_rec (length data)) m (Datatypes.S (length data)) (Datatypes.S (length data)) data data 0 0 data [] v
              (has_init (md_of sc m)) (view_self _ B S) B B ltac:(lia) T ltac:(lia) ltac:(lia)) as L.
  split.
  - intros E. destruct L as [(v1 & has' & k & Hk & T' & E1 & _ & E2)|(e & st & E1 & T' & X)]; rewrite E1 in E; [|discriminate].
    cbn [rbind] in E. destruct (has_all (md_of sc m) has') eqn:HA; cbn [negb] in E; [|discriminate].
    rewrite Z.add_0_l, Z.ltb_irrefl in E. injection E as ->. exists k, has'. auto.
  - intros (k & has & St & HA). 
    assert (k <= length data)%nat as Lk.
    { destruct (steps_run sc W U (length data) _ (um_msg_rec (length data)) m data k _ _ _ _ _ _ data (view_self _ B S) B ltac:(lia) T St)
        as (cs & s & E & Ez & R & _ & <- & _).
      assert (forall cs v v', run sc m cs v v' -> (length cs <= length (concat (map snd cs)))%nat) as LC.
      { clear. intros cs v v' R. induction R as [|num c cs v v1 v' C R IH]; cbn; [lia|]. rewrite app_length.
        assert (starts c num) as (t & r & -> & Vt & _) by (destruct C; assumption).
        apply is_varint_ne in Vt. destruct t; [contradiction|]. cbn. lia. }
      apply LC in R. rewrite E, app_length. lia. }
    rewrite (steps_loop _ _ _ _ _ _ _ _ _ _ _ (Datatypes.S (length data)) St) by lia.
    destruct (Datatypes.S (length data) - k)%nat as [|j] eqn:Ej; [lia|]. cbn [um_loop]. rewrite Z.ltb_irrefl. cbn [rbind].
    rewrite HA. cbn [negb]. now rewrite Z.ltb_irrefl.
Qed.

Lemma UnmarshalVT_run m data v v' : bytes_ok data = true -> small data -> target sc m v ->
  UnmarshalVT sc m data v = Ok v' ->
  exists cs, data = concat (map snd cs) /\ run sc m cs v v' /\
    has_all (md_of sc m) (marks sc m cs (has_init (md_of sc m))) = true.
Proof.
  intros B S T E. apply UnmarshalVT_steps in E as (k & has & St & HA); auto.
  destruct (steps_run sc W U (length data) _ (um_msg_rec (length data)) m data k _ _ _ _ _ _ data (view_self _ B S) B ltac:(lia) T St)
    as (cs & s & E & Ez & R & -> & _ & _).
  exists cs. rewrite E, zlen_app in Ez. assert (s = []) as -> by (apply zlen_zero; lia). rewrite app_nil_r in E. auto.
Qed.
End Top.
