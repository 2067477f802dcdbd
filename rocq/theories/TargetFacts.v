(** Receivers stay well-typed under the assignments of UnmarshalVT. *)
From Coq Require Import ZArith List Bool Lia.
From Verif Require Import Base BaseFacts Schema Value Helpers Unmarshal WireSpec Typing MsgSpec.
Import ListNotations.
Open Scope Z_scope.

Lemma list_set_length {A} (l : list A) n x : length (list_set l n x) = length l.
Proof. revert n. induction l as [|a l IH]; intros [|n]; cbn; auto. Qed.
Lemma nth_list_set_eq {A} (l : list A) n x d : (n < length l)%nat -> nth n (list_set l n x) d = x.
Proof. revert n. induction l as [|a l IH]; intros [|n] H; cbn in *; try lia; auto. apply IH. lia. Qed.
Lemma nth_list_set_neq {A} (l : list A) n k x d : n <> k -> nth k (list_set l n x) d = nth k l d.
Proof.
  revert n k. induction l as [|a l IH]; intros [|n] [|k] H; cbn; auto; lia.
Qed.
Lemma slot_set_eq s i x : (i < length s)%nat -> slot (list_set s i x) i = x.
Proof. apply nth_list_set_eq. Qed.
Lemma slot_set_neq s i j x : i <> j -> slot (list_set s i x) j = slot s j.
Proof. apply nth_list_set_neq. Qed.

(** What [mergeable] asks of one struct member. *)
Definition mg_at (sc : schema) (f : fdesc) (x : val) : Prop :=
  (forall l k m', f_ty f = TField l k -> l = LOptional \/ l = LRequired -> sub_of k = Some m' ->
     x = VNil \/ mergeable sc m' x) /\
  (forall k m' y, f_ty f = TField LOneof k -> sub_of k = Some m' -> x = VOneof (f_num f) y -> mergeable sc m' y).

Definition hid_ok (sc : schema) (m : nat) (h : list (list val)) : Prop :=
  forall f p k m' x, In f (md_fields (md_of sc m)) -> f_ty f = TField (LRepeated p) k ->
    sub_of k = Some m' -> In x (nth (f_slot f) h []) -> x = VNil \/ target sc m' x.

Lemma target_iff sc m s u h : target sc m (VMsg s u h) <->
  (length s = md_nslots (md_of sc m) /\ bytes_ok u = true /\ hid_ok sc m h /\
   forall f, In f (md_fields (md_of sc m)) ->
     wt_field sc (md_of sc m) f (slot s (f_slot f)) /\ mg_at sc f (slot s (f_slot f))).
Proof.
  split.
  - intros [W M]. inversion W; subst. inversion M; subst. repeat split; auto.
    + intros l k m' T L K. eauto.
    + intros k m' y T K E. eauto.
  - intros (L & B & H & F). split.
    + constructor; auto. intros f Hf. now apply F.
    + constructor.
      * intros f l k m' Hf T O K. destruct (F f Hf) as [_ [M _]]. eauto.
      * intros f k m' x Hf T K E. destruct (F f Hf) as [_ [_ M]]. eauto.
      * exact H.
Qed.

Lemma target_vmsg sc m v : target sc m v -> exists s u h, v = VMsg s u h.
Proof. intros [W _]. inversion W; subst. eauto. Qed.

Section Set_.
Variable sc : schema.
Hypothesis W : wf_schema sc = true.

Lemma target_set m s u h f x : target sc m (VMsg s u h) -> In f (md_fields (md_of sc m)) ->
  wt_field sc (md_of sc m) f x -> mg_at sc f x ->
  (is_oneof f = true -> x = VNil \/ exists y, x = VOneof (f_num f) y) ->
  target sc m (VMsg (list_set s (f_slot f) x) u h).
Proof.
  intros T Hf Wx Mx Ox. apply target_iff in T as (L & B & H & F). apply target_iff.
  rewrite list_set_length. repeat split; auto; destruct (Nat.eq_dec (f_slot f) (f_slot f0)) as [E|E];
    try (rewrite slot_set_neq by assumption; now apply F).
  - pose proof (wf_slot sc m f W Hf). rewrite <- E, slot_set_eq by lia.
    assert (forall x y : fdesc, {x = y} + {x <> y}) as D by (repeat decide equality).
    destruct (D f f0) as [<-|N]; [assumption|].
    destruct (wf_compat sc m f f0 W Hf H0 N) as [_ C]. destruct (C E) as [C1 C2].
    unfold is_oneof in C2. destruct (f_ty f0) as [[] k0|] eqn:T0; try discriminate.
    unfold is_oneof in C1, Ox. destruct (f_ty f) as [[] k1|] eqn:T1; try discriminate.
    destruct (Ox eq_refl) as [-> | (y & ->)].
    + apply wt_unset. now rewrite T0.
    + apply wt_field_inv in Wx. rewrite T1 in Wx. destruct Wx as [Wx|(g & k & x & Ey & Hg & Sg & Tg & Wy)]; [discriminate|].
      injection Ey as En ->. rewrite En. eapply wt_oneof; eauto. congruence.
  - pose proof (wf_slot sc m f W Hf). rewrite <- E, slot_set_eq by lia.
    assert (forall x y : fdesc, {x = y} + {x <> y}) as D by (repeat decide equality).
    destruct (D f f0) as [<-|N]; [apply Mx|].
    destruct (wf_compat sc m f f0 W Hf H0 N) as [_ C]. destruct (C E) as [C1 C2].
    unfold is_oneof in C2. intros l k m' T0 [-> | ->]; rewrite T0 in C2; discriminate.
  - pose proof (wf_slot sc m f W Hf). rewrite <- E, slot_set_eq by lia.
    assert (forall x y : fdesc, {x = y} + {x <> y}) as D by (repeat decide equality).
    destruct (D f f0) as [<-|N]; [apply Mx|].
    destruct (wf_compat sc m f f0 W Hf H0 N) as [Cn C]. destruct (C E) as [C1 C2].
    intros k m' y T0 K E1. destruct (Ox C1) as [-> | (z & ->)]; [discriminate|]. congruence.
Qed.

Lemma target_unk m s u h bs : target sc m (VMsg s u h) -> bytes_ok bs = true ->
  target sc m (VMsg s (u ++ bs) h).
Proof.
  intros T B. apply target_iff in T as (L & Bu & H & F). apply target_iff. repeat split; auto.
  - rewrite bytes_ok_app, Bu, B. reflexivity.
  - now apply F.
  - now apply F.
  - now apply F.
Qed.

Lemma target_hid m s u h h' : target sc m (VMsg s u h) -> hid_ok sc m h' -> target sc m (VMsg s u h').
Proof. rewrite !target_iff. intuition. Qed.

Lemma zero_of_wt n md f : wf_type n (f_ty f) = true -> wt_field sc md f (zero_of (f_ty f)).
Proof.
  intros H. destruct (f_ty f) as [[] k|] eqn:T; cbn [zero_of]; try (apply wt_unset; now rewrite T).
  eapply wt_implicit; [eassumption|].
  destruct k; cbn [classify]; try (now constructor); now eapply wt_nilsub.
Qed.

Lemma zero_slot_of md n f : forallb (wf_field n md) (md_fields md) = true -> pairwise compatible (md_fields md) = true ->
  In f (md_fields md) -> zero_slot md (f_slot f) = zero_of (f_ty f).
Proof.
  intros H P Hf. unfold zero_slot. destruct (find _ _) as [g|] eqn:E.
  - apply find_some in E as [Hg E]. apply Nat.eqb_eq in E.
    apply In_nth_error in Hf as [i Hi]. apply In_nth_error in Hg as [j Hj].
    assert (f = g \/ compatible f g = true \/ compatible g f = true) as C.
    { destruct (Nat.lt_trichotomy i j) as [L|[->|L]].
      - right. left. eapply pairwise_spec; eauto.
      - left. congruence.
      - right. right. eapply pairwise_spec; eauto. }
    unfold compatible, is_oneof in C. destruct C as [-> |[C|C]]; [reflexivity| |];
      rewrite E, Nat.eqb_refl in C; destruct (f_ty f) as [[]|]; destruct (f_ty g) as [[]|];
      cbn in C; rewrite ?andb_false_r in C; try discriminate; reflexivity.
  - apply find_none with (x := f) in E; [|assumption]. now rewrite Nat.eqb_refl in E.
Qed.

Lemma zero_slots_at md i : (i < md_nslots md)%nat -> slot (zero_slots md) i = zero_slot md i.
Proof.
  intros H. unfold slot, zero_slots.
  rewrite (nth_indep _ VNil (zero_slot md 0)) by (rewrite map_length, seq_length; lia).
  rewrite map_nth, seq_nth by lia. reflexivity.
Qed.

Lemma zero_slots_of m f : In f (md_fields (md_of sc m)) ->
  slot (zero_slots (md_of sc m)) (f_slot f) = zero_of (f_ty f).
Proof.
  intros Hf. rewrite zero_slots_at by (eapply wf_slot; eauto).
  pose proof (wf_md sc m W) as M. unfold wf_msg in M. apply andb_true_iff in M as [M1 M2].
  now apply (zero_slot_of _ (length (sc_msgs sc))).
Qed.

Lemma zero_mg f : mg_at sc f (zero_of (f_ty f)).
Proof.
  split.
  - intros l k m' T O K. left. rewrite T. destruct O as [-> | ->]; reflexivity.
  - intros k m' y T K E. rewrite T in E. discriminate.
Qed.

Lemma target_new m : target sc m (new_msg (md_of sc m)).
Proof.
  unfold new_msg. apply target_iff. repeat split.
  - unfold zero_slots. now rewrite map_length, seq_length.
  - intros f p k m' x _ _ _ Hx. destruct (f_slot f); destruct Hx.
  - rewrite zero_slots_of by assumption. eapply zero_of_wt, wf_ty; eauto.
  - rewrite zero_slots_of by assumption. apply zero_mg.
  - rewrite zero_slots_of by assumption. apply zero_mg.
Qed.
End Set_.
