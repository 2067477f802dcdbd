(** The marshaling entry points, from the simulation. *)
From Coq Require Import ZArith List Bool Lia Permutation Sorted.
From Verif Require Import Base BaseFacts Schema Value Helpers Size Marshal WireSpec Typing
  VarintFacts SimFacts OrderFacts MarshalFacts MsgSpec.
Import ListNotations.
Open Scope Z_scope.

Section Top.
Variable sc : schema.
Hypothesis W : wf_schema sc = true.
Hypothesis U : up_enc_ok sc.
Variables (strict : bool) (m : nat) (v : val).
Hypothesis H : wt_ptrmsg sc m v.

Lemma top_size : SizeVT sc m v = zlen (Encoding sc (order sc strict) m v).
Proof. now apply marshal_top. Qed.

Lemma top_sized p q : zlen q = SizeVT sc m v ->
  outcome (Initialized sc m v) (MarshalToSizedBufferVT sc strict m v (p ++ q))
    (p ++ Encoding sc (order sc strict) m v, SizeVT sc m v).
Proof.
  intros Hq. rewrite top_size in *. destruct (marshal_top sc strict m v W U H) as [[S _] _]. now apply S.
Qed.

Lemma top_short buf : zlen buf < SizeVT sc m v -> failed (MarshalToSizedBufferVT sc strict m v buf).
Proof.
  intros Hq. rewrite top_size in *. destruct (marshal_top sc strict m v W U H) as [[_ S] _]. now apply S.
Qed.

Lemma top_marshal : v <> VNil ->
  outcome (Initialized sc m v) (MarshalVT sc strict m v) (Some (Encoding sc (order sc strict) m v)).
Proof.
  intros N.
  pose proof (top_sized [] (repeat 0 (Z.to_nat (SizeVT sc m v)))) as S.
  pose proof (zlen_nonneg (Encoding sc (order sc strict) m v)) as P. rewrite <- top_size in P.
  rewrite zlen_repeat, Z2Nat.id in S by lia. specialize (S eq_refl). cbn [app] in S.
  set (r := do r <- MarshalToSizedBufferVT sc strict m v (repeat 0 (Z.to_nat (SizeVT sc m v)));
            do out <- orpanic (zslice (fst r) 0 (snd r)); Ok (Some out)).
  assert (outcome (Initialized sc m v) r (Some (Encoding sc (order sc strict) m v))) as R.
  { unfold r. destruct (Initialized sc m v); cbn [outcome] in *.
    - rewrite S. cbn [rbind fst snd]. rewrite top_size.
      rewrite <- (app_nil_r (Encoding sc (order sc strict) m v)) at 1.
      rewrite zslice_pre. reflexivity.
    - destruct S as [e ->]. exists e. reflexivity. }
  replace (MarshalVT sc strict m v) with r; [exact R|]. unfold r, MarshalVT.
  clear -N. destruct v; try contradiction; reflexivity.
Qed.

Lemma top_to arr : 
  (SizeVT sc m v <= zlen arr ->
   outcome (Initialized sc m v) (MarshalToVT sc strict m v arr)
     (Encoding sc (order sc strict) m v ++ skipn (Z.to_nat (SizeVT sc m v)) arr, SizeVT sc m v))
  /\ (zlen arr < SizeVT sc m v -> MarshalToVT sc strict m v arr = Panic).
Proof.
  pose proof (zlen_nonneg (Encoding sc (order sc strict) m v)) as P. rewrite <- top_size in P.
  unfold MarshalToVT. cbv zeta. split; intros L.
  - destruct (split_at arr (SizeVT sc m v)) as (q & s & -> & Lq); [lia|].
    rewrite <- Lq at 1. rewrite zslice_pre. cbn [orpanic rbind].
    pose proof (top_sized [] q Lq) as S. cbn [app] in S.
    destruct (Initialized sc m v); cbn [outcome] in *.
    + rewrite S. reflexivity.
    + destruct S as [e ->]. exists e. reflexivity.
  - unfold zslice. replace ((0 <=? 0) && (0 <=? SizeVT sc m v) && (SizeVT sc m v <=? zlen arr)) with false by lia.
    reflexivity.
Qed.
End Top.

Definition num_lt (f g : fdesc) : Prop := f_num f < f_num g.

Lemma ascending_sorted l : ascending l -> NoDup (map f_num l) -> StronglySorted num_lt l.
Proof.
  induction 1 as [|f l H1 H2 IH]; intros N; [constructor|]. cbn in N. inversion N; subst.
  constructor; [now apply IH|]. apply Forall_forall. intros g Hg.
  assert (f_num f <> f_num g) by (intros E; apply H3; rewrite E; now apply in_map).
  unfold num_lt. specialize (H1 g Hg). lia.
Qed.

Lemma strict_sorted sc m : wf_schema sc = true -> StronglySorted num_lt (order sc true m).
Proof.
  intros W. apply ascending_sorted; [apply sort_asc|].
  eapply Permutation_NoDup; [|apply wf_NoDup, W]. apply Permutation_map. symmetry. apply (order_perm sc true).
Qed.

Lemma fast_sorted sc m : wf_schema sc = true -> exists a b, order sc false m = a ++ b /\
  StronglySorted num_lt a /\
  (forall f, In f a -> is_oneof f = false) /\ (forall f, In f b -> is_oneof f = true).
Proof.
  intros W. destruct (fast_shape sc m) as (a & b & E & A & HA & HB). exists a, b.
  split; [exact E|]. split; [|now split]. apply ascending_sorted; [assumption|].
  assert (NoDup (map f_num (a ++ b))) as N.
  { eapply Permutation_NoDup; [|apply wf_NoDup, W]. apply Permutation_map. symmetry.
    rewrite <- E. apply (order_perm sc false). }
  rewrite map_app in N. clear -N. induction (map f_num a) as [|x l IH]; [constructor|].
  cbn in N. inversion N; subst. constructor; [|auto]. intros Hx. apply H1, in_or_app. now left.
Qed.

(** * Missing required fields *)
Lemma forallb_false {A} (P : A -> bool) l : forallb P l = false <-> exists x, In x l /\ P x = false.
Proof.
  induction l as [|a l IH]; cbn.
  - split; [discriminate|]. intros (x & [] & _).
  - rewrite andb_false_iff, IH. split.
    + intros [E|(x & Hx & Px)]; eauto.
    + intros (x & [->|Hx] & Px); eauto.
Qed.

Lemma vdepth_list l x : In x l -> (vdepth x < vdepth (VList l))%nat.
Proof.
  cbn. induction l as [|a l IH]; [intros []|]. intros [->|Hx]; cbn.
  - lia.
  - specialize (IH Hx). lia.
Qed.
Lemma vdepth_map l k x : In (k, x) l -> (vdepth x < vdepth (VMap l))%nat.
Proof.
  cbn. induction l as [|a l IH]; [intros []|]. intros [->|Hx]; cbn.
  - lia.
  - specialize (IH Hx). lia.
Qed.
Lemma vdepth_slot s u h i : (vdepth (slot s i) < vdepth (VMsg s u h))%nat.
Proof.
  cbn. unfold slot. revert i. induction s as [|a s IH]; intros [|i]; cbn; try lia.
  specialize (IH i). lia.
Qed.

Lemma req_value_false sc rr k x : req_value sc rr k x = false <->
  exists m', sub_of k = Some m' /\
    (md_foreign (md_of sc m') = false /\ rr m' x = false \/
     md_foreign (md_of sc m') = true /\ up_init (sc_up sc) m' x = false).
Proof.
  split.
  - intros H. destruct k; cbn in H; try discriminate; eexists; (split; [reflexivity|]);
      destruct (md_foreign _); auto.
  - intros (m' & E & D). destruct k; cbn in E; try discriminate; injection E as ->; cbn;
      destruct D as [[-> ->]|[-> ->]]; reflexivity.
Qed.

Lemma req_missing sc : wf_schema sc = true -> forall n m v, wt_ptrmsg sc m v -> (vdepth v < n)%nat ->
  (req_msg sc n m v = false <-> MissingRequired sc m v).
Proof.
  intros W. induction n as [|n IH]; intros m v T D; [lia|]. cbn [req_msg].
  assert (forall k x, wt_elem sc k x -> (vdepth x < n)%nat ->
            (req_value sc (req_msg sc n) k x = false <->
             exists m', sub_of k = Some m' /\ MissingSub sc m' x)) as V.
  { intros k x Tx Dx. rewrite req_value_false.
    assert (forall m', sub_of k = Some m' -> wt_ptrmsg sc m' x) as TT.
    { intros m' E. inversion Tx; subst; try discriminate; unfold wt_ptrmsg; auto.
      - destruct k; discriminate.
      - right. congruence. }
    split.
    - intros (m' & E & [[F R]|[F R]]); exists m'; (split; [assumption|]).
      + apply miss_own; auto. apply IH in R; auto.
      + now apply miss_up.
    - intros (m' & E & M). exists m'. split; [assumption|]. inversion M; subst; [left|right]; split; auto.
      apply IH; auto. }
  destruct T as [->|T].
  - cbn. split; [discriminate|]. intros M. inversion M.
  - inversion T as [m0 slots unk hid L F B]; subst. cbn [req_body]. rewrite forallb_false.
    assert (forall i, (vdepth (slot slots i) < n)%nat) as DS.
    { intros i. pose proof (vdepth_slot slots unk hid i). lia. }
    split.
    + intros (f & Hf & R). pose proof (F f Hf) as Tf. apply wt_field_inv in Tf. specialize (DS (f_slot f)).
      unfold req_field in R. destruct (f_ty f) as [lbl k|kk vk] eqn:Ef.
      * destruct lbl.
        -- apply orb_false_iff in R as [R1 R2]. exfalso.
           pose proof (wf_ty sc m f W Hf) as Wt. rewrite Ef in Wt. cbn in Wt.
           apply andb_true_iff in Wt as [_ Wt].
           destruct (proj1 (req_value_false sc (req_msg sc n) k _) R2) as (m' & E & _). rewrite E in Wt. discriminate.
        -- assert (exists x, slot slots (f_slot f) = x /\ x <> VNil /\ wt_elem sc k x /\ req_value sc (req_msg sc n) k x = false
                   \/ (exists y, slot slots (f_slot f) = VPtr y) /\ x = VNil) as Q.
           { destruct (slot slots (f_slot f)) eqn:Es; try discriminate;
             try (eexists; left; split; [reflexivity|]; split; [discriminate|]; split; [|exact R];
                  destruct Tf as [?|[(x & ? & _)|(_ & _ & ?)]]; try discriminate; assumption).
             exists VNil. right. split; eauto. }
           destruct Q as (x & [(Es & Nx & Tx & Rx)|[(y & Es) _]]).
           ++ apply V in Rx; auto; [|now rewrite <- Es]. destruct Rx as (m' & E & M).
              eapply miss_in; eauto. rewrite Ef, Es. apply pop_sing; auto.
           ++ rewrite Es in *. destruct Tf as [?|[(x' & ? & K & Tx)|(_ & _ & ?)]]; try discriminate.
              ** injection H as ->. destruct (proj1 (req_value_false sc (req_msg sc n) k x') R) as (m' & E & _).
                 destruct K as [K| ->]; [|discriminate]. destruct k; discriminate.
              ** now apply wt_elem_notptr in H.
        -- destruct (slot slots (f_slot f)) eqn:Es.
           { eapply miss_here; eauto. unfold is_required. now rewrite Ef. }
           all: try (assert (wt_elem sc k (slot slots (f_slot f))) as Tx
                       by (rewrite Es; destruct Tf as [?|[(x & ? & _)|(_ & _ & ?)]]; try discriminate; assumption);
                     rewrite Es in Tx; apply V in R; [|assumption|assumption]; destruct R as (m' & E & M);
                     eapply miss_in; eauto; rewrite Ef, Es; apply pop_sing; [now right|discriminate]).
           destruct Tf as [?|[(x' & ? & K & Tx)|(_ & _ & ?)]]; try discriminate.
           ++ injection H as ->. destruct (proj1 (req_value_false sc (req_msg sc n) k x') R) as (m' & E & _).
              destruct K as [K| ->]; [|discriminate]. destruct k; discriminate.
           ++ now apply wt_elem_notptr in H.
        -- apply forallb_false in R as (x & Hx & R).
           destruct (slot slots (f_slot f)) eqn:Es; cbn in Hx; try contradiction.
           destruct Tf as [?|(l0 & E & Tl)]; [discriminate|]. injection E as <-.
           apply V in R; [|auto|pose proof (vdepth_list _ _ Hx); lia]. destruct R as (m' & E & M).
           eapply miss_in; eauto. rewrite Ef, Es. now apply pop_list.
        -- destruct (slot slots (f_slot f)) eqn:Es; try discriminate.
           destruct (num =? f_num f) eqn:N; [|discriminate]. apply Z.eqb_eq in N. subst num.
           apply orb_false_iff in R as [R1 R2].
           destruct Tf as [?|(g & k' & x & E & Hg & Sg & Tg & Tx)]; [discriminate|].
           injection E as En ->. apply (wf_num_inj sc m) in En; auto. subst g. rewrite Ef in Tg. injection Tg as <-.
           apply V in R2; [|assumption|cbn in DS; lia]. destruct R2 as (m' & E & M).
           eapply miss_oneof; eauto. intros ->. discriminate.
      * apply forallb_false in R as ([y x] & Hx & R).
        destruct (slot slots (f_slot f)) eqn:Es; cbn in Hx; try contradiction.
        destruct Tf as [?|(l0 & E & _ & Tl & _)]; [discriminate|]. injection E as <-.
        apply V in R; [|apply (Tl _ Hx)|pose proof (vdepth_map _ _ _ Hx); cbn [snd]; lia].
        destruct R as (m' & E & M). eapply miss_in; eauto. rewrite Ef, Es. now apply pop_map with y.
    + intros M. inversion M as [m0 s0 u0 h0 f Hf R Es|m0 s0 u0 h0 f k m' x Hf P E Ms|m0 s0 u0 h0 f k m' x Hf Ef Es Nx E Ms]; subst;
        exists f; (split; [assumption|]); unfold req_field; pose proof (F f Hf) as Tf; apply wt_field_inv in Tf;
        specialize (DS (f_slot f)).
      * unfold is_required in R. destruct (f_ty f) as [[] k|]; try discriminate. now rewrite Es.
      * remember (f_ty f) as t eqn:Et. remember (slot slots (f_slot f)) as w eqn:Ew.
        destruct P as [p k l x Hx|kk k l y x Hx|lbl k x Hl Nx].
        -- destruct Tf as [?|(l0 & E' & Tl)]; [discriminate|]. injection E' as <-.
           apply forallb_false. exists x. split; [assumption|]. apply V; eauto.
           pose proof (vdepth_list _ _ Hx); lia.
        -- destruct Tf as [?|(l0 & E' & _ & Tl & _)]; [discriminate|]. injection E' as <-.
           apply forallb_false. exists (y, x). split; [assumption|]. cbn [snd]. apply V.
           ++ apply (Tl _ Hx).
           ++ pose proof (vdepth_map _ _ _ Hx); lia.
           ++ eauto.
        -- clear Ew. assert (wt_elem sc k x) as Tw.
           { destruct Hl as [-> | ->]; destruct Tf as [?|[(x' & E' & K & Tx)|(_ & _ & ?)]]; try contradiction; auto;
             exfalso; destruct K as [K| ->]; try discriminate; destruct k; discriminate. }
           assert (req_value sc (req_msg sc n) k x = false) as R by (apply V; eauto).
           destruct Hl as [-> | ->]; destruct x; try contradiction; try exact R; now apply wt_elem_notptr in Tw.
      * rewrite Ef, Es in *. rewrite Z.eqb_refl.
        destruct Tf as [?|(g & k' & x' & E' & Hg & Sg & Tg & Tx)]; [discriminate|].
        injection E' as En <-. apply (wf_num_inj sc m) in En; auto. subst g. rewrite Ef in Tg. injection Tg as <-.
        apply orb_false_iff. split; [now destruct x|]. apply V; eauto. cbn in DS. lia.
Qed.

Lemma Initialized_missing sc m v : wf_schema sc = true -> wt_ptrmsg sc m v ->
  (Initialized sc m v = false <-> MissingRequired sc m v).
Proof. intros. apply req_missing; auto. Qed.
