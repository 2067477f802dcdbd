(** CloneVT yields a message like the original. *)
From Coq Require Import ZArith List Bool Lia Permutation.
From Verif Require Import Base BaseFacts Schema Value Unmarshal Equal Clone WireSpec Typing RecordSpec MsgSpec DecodeSpec ContentSpec CloneSpec
  OrderFacts SimFacts MarshalFacts MarshalTop TargetFacts RoundTrip SameFacts EqualRel EqualSame LikeFacts.
Import ListNotations.
Open Scope Z_scope.

(** * Assignments *)
Lemma assign_cons slots g f fs r : clone_assign slots g (f :: fs) r =
  clone_assign slots g fs (list_set r (f_slot f) (g f (slot slots (f_slot f)) (slot r (f_slot f)))).
Proof. reflexivity. Qed.
Lemma assign_length slots g fs : forall r, length (clone_assign slots g fs r) = length r.
Proof. induction fs as [|f fs IH]; intros r; [reflexivity|]. rewrite assign_cons, IH. apply list_set_length. Qed.
Lemma assign_other slots g fs i : forall r, (forall f, In f fs -> f_slot f <> i) -> slot (clone_assign slots g fs r) i = slot r i.
Proof.
  induction fs as [|f fs IH]; intros r H; [reflexivity|]. rewrite assign_cons, IH by (intros; apply H; now right).
  apply slot_set_neq. apply H. now left.
Qed.
Lemma assign_in slots g fs f : forall r, NoDup (map f_slot fs) -> In f fs -> (f_slot f < length r)%nat ->
  slot (clone_assign slots g fs r) (f_slot f) = g f (slot slots (f_slot f)) (slot r (f_slot f)).
Proof.
  induction fs as [|f' fs IH]; intros r N H L; [destruct H|]. cbn in N. inversion N as [|? ? N1 N2]; subst. rewrite assign_cons. destruct H as [->|H].
  - rewrite assign_other; [now apply slot_set_eq|]. intros f' Hf' E. apply N1. rewrite <- E. now apply in_map.
  - rewrite IH; auto; [|now rewrite list_set_length].
    rewrite slot_set_neq; [reflexivity|]. intros E. apply N1. rewrite E. now apply in_map.
Qed.
Lemma ones_length (g : nat -> val -> val) l : forall r, length (fold_left (fun r s => list_set r s (g s (slot r s))) l r) = length r.
Proof. induction l as [|i l IH]; intros r; [reflexivity|]. cbn [fold_left]. rewrite IH. apply list_set_length. Qed.
Lemma ones_other (g : nat -> val -> val) l i : forall r, ~ In i l -> slot (fold_left (fun r s => list_set r s (g s (slot r s))) l r) i = slot r i.
Proof.
  induction l as [|j l IH]; intros r H; [reflexivity|]. cbn [fold_left]. rewrite IH by (intros Hi; apply H; now right).
  apply slot_set_neq. intros ->. apply H. now left.
Qed.
Lemma ones_in (g : nat -> val -> val) l i : forall r, NoDup l -> In i l -> (i < length r)%nat ->
  slot (fold_left (fun r s => list_set r s (g s (slot r s))) l r) i = g i (slot r i).
Proof.
  induction l as [|j l IH]; intros r N H L; [destruct H|]. inversion N as [|? ? N1 N2]; subst. cbn [fold_left]. destruct H as [->|H].
  - rewrite ones_other by assumption. now apply slot_set_eq.
  - rewrite IH; auto; [|now rewrite list_set_length]. rewrite slot_set_neq; [reflexivity|]. intros ->. contradiction.
Qed.

Section Clone.
Variable sc : schema.
Variable al : list step -> nat -> val.
Hypothesis W : wf_schema sc = true.
Hypothesis UC : up_clone_ok sc.
Hypothesis AL : forall p m, blank sc m (al p m).
Definition C (m : nat) (x y : val) : Prop := md_foreign (md_of sc m) = true /\ y = up_clone (sc_up sc) m x.
Notation lv := (like_value sc C). Notation lf := (like_field sc C). Notation lm := (like_msg sc C).

Lemma slots_nodup m : NoDup (map f_slot (filter (fun f => negb (is_oneof f)) (md_fields (md_of sc m)))).
Proof.
  assert (forall l, (forall f g, In f l -> In g l -> f <> g -> f_slot f = f_slot g -> is_oneof f = true /\ is_oneof g = true) -> NoDup l ->
    NoDup (map f_slot (filter (fun f => negb (is_oneof f)) l))) as H.
  { induction l as [|f l IH]; intros H N; [constructor|]. inversion N as [|? ? N1 N2]; subst. cbn.
    assert (NoDup (map f_slot (filter (fun f => negb (is_oneof f)) l))) as R by (apply IH; auto; intros; apply H; cbn; auto).
    destruct (is_oneof f) eqn:O; cbn [negb]; [exact R|]. cbn [map]. constructor; [|exact R]. intros Hi. apply in_map_iff in Hi as (g & Eg & Hg).
    apply filter_In in Hg as [Hg _]. destruct (H f g) as [Of _]; [now left|now right| |auto|congruence]. intros ->. contradiction. }
  apply H.
  - intros f g Hf Hg Ne. apply (wf_compat sc m f g W Hf Hg Ne).
  - pose proof (wf_NoDup sc m W) as N. now apply NoDup_map_inv in N.
Qed.

(** What a blank struct member holds. *)
Lemma blank_unset f l k cur : f_ty f = TField l k -> l = LOptional \/ l = LRequired -> same_field sc same_bits same_bits (fun _ => eq) f VNil cur -> cur = VNil.
Proof. intros T L H. inversion H; subst; tys; try discriminate; try congruence; destruct L; discriminate. Qed.

Lemma blank_list f p k cur : f_ty f = TField (LRepeated p) k -> same_field sc same_bits same_bits (fun _ => eq) f VNil cur -> vlist cur = [].
Proof.
  intros T H. inversion H as [| |? ? ? E L|? ? ? ? ? E L|? ? ? ? ? E X| | |]; subst; tys; try discriminate; try (destruct L; discriminate).
  inversion X. congruence.
Qed.
Lemma blank_map f kk vk cur : f_ty f = TMap kk vk -> same_field sc same_bits same_bits (fun _ => eq) f VNil cur -> vmap cur = [].
Proof.
  intros T H. inversion H as [| |? ? ? E L|? ? ? ? ? E L| |? ? ? ? ? l E Pm X| |]; subst; tys; try discriminate; try (destruct L; discriminate).
  cbn [vmap] in Pm. apply Permutation_nil in Pm. subst. inversion X. congruence.
Qed.
Lemma blank_oneof f k cur y : f_ty f = TField LOneof k -> same_field sc same_bits same_bits (fun _ => eq) f VNil cur -> cur <> VOneof (f_num f) y.
Proof.
  intros T H. inversion H as [| |? ? ? E L|? ? ? ? ? E L| | |? ? ? ? E Na Nb|]; subst; tys; try discriminate; try (destruct L; discriminate).
  apply Nb.
Qed.

Section Level.
Variable n : nat.
Variable path : list step.
Hypothesis IH : forall p m v, (vdepth v < n)%nat -> wt_msg sc m v -> md_foreign (md_of sc m) = false ->
  lm m v (clone_msg sc al n p m v) /\ wt_msg sc m (clone_msg sc al n p m v).
Notation rec := (fun st => clone_msg sc al n (st :: path)).

Lemma clone_nil p m : clone_msg sc al n p m VNil = VNil.
Proof. destruct n; reflexivity. Qed.
Lemma clone_elem st k x : (vdepth x < n)%nat -> wt_elem sc k x ->
  lv k x (cloneFieldSingular sc rec st k x) /\ wt_elem sc k (cloneFieldSingular sc rec st k x).
Proof.
  intros D T. destruct (sub_of k) as [m|] eqn:S.
  - assert (cloneFieldSingular sc rec st k x = if md_foreign (md_of sc m) then up_clone (sc_up sc) m x else clone_msg sc al n (st :: path) m x) as ->
      by (destruct k; try discriminate; injection S as ->; reflexivity).
    destruct (wt_elem_sub sc k m x S T) as [->|Tm].
    + rewrite clone_nil, (uc_nil sc UC). replace (if md_foreign (md_of sc m) then VNil else VNil) with VNil by (destruct (md_foreign _); reflexivity).
      split; [eapply lv_nil; eauto|eapply wt_nilsub; eauto].
    + destruct (md_foreign (md_of sc m)) eqn:F.
      * pose proof (uc_msg sc UC m x F Tm) as Tc. split; [|eapply wt_sub; eauto].
        eapply lv_up; eauto; [inversion Tm; discriminate|inversion Tc; discriminate|split; auto].
      * destruct (IH (st :: path) m x D Tm F) as [L Tc]. split; [eapply lv_msg; eauto|eapply wt_sub; eauto].
  - destruct (is_num k) eqn:N.
    + destruct (wt_elem_num sc k x N T) as (z & -> & R).
      replace (cloneFieldSingular sc rec st k (VInt z)) with (VInt z) by (destruct k; try discriminate; reflexivity).
      split; [now apply lv_num|exact T].
    + destruct k; try discriminate.
      * cbn. split; [apply lv_text; auto|exact T].
      * cbn. split; [apply lv_text; auto|]. apply wt_bytes. inversion T as [? ? R|? ?|? ?| |? ? S'|? ? ? S']; subst; try discriminate; assumption || reflexivity.
Qed.

Lemma clone_list_ok s k l : forall i, (forall x, In x l -> (vdepth x < n)%nat /\ wt_elem sc k x) ->
  Forall2 (lv k) l (clone_list sc rec s k i l) /\ (forall y, In y (clone_list sc rec s k i l) -> wt_elem sc k y).
Proof.
  induction l as [|x l IHl]; intros i H; cbn [clone_list]; [split; [constructor|intros ? []]|].
  destruct (H x (or_introl eq_refl)) as [D T]. destruct (clone_elem (SElem s i) k x D T) as [L Ty].
  destruct (IHl (Datatypes.S i)) as [Ls Tl]; [intros; apply H; now right|]. split; [now constructor|]. intros y [<-|Hy]; auto.
Qed.

Lemma clone_set_ok m f lb k x : In f (md_fields (md_of sc m)) -> f_ty f = TField lb k -> lb = LOptional \/ lb = LRequired ->
  (vdepth x < n)%nat -> wt_field sc (md_of sc m) f x ->
  x = VNil \/ (exists y, x = VPtr y /\ (is_num k = true \/ k = KString) /\ wt_elem sc k y) \/ (is_num k = false /\ k <> KString /\ wt_elem sc k x) ->
  let y := match classify k with
           | CByt => if is_nil x then VNil else VBytes (vbytes x)
           | CMsg m | CGrp m =>
               if md_foreign (md_of sc m)
               then if is_nil x then VNil else cloneFieldSingular sc rec (SField (f_slot f)) k x
               else cloneFieldSingular sc rec (SField (f_slot f)) k x
           | _ => if is_nil x then VNil else VPtr (deref x)
           end in
  lf f x y /\ wt_field sc (md_of sc m) f y.
Proof.
  intros Hf Ty L D T T' y.
  assert (zero_of (f_ty f) = VNil) as Z0 by (rewrite Ty; destruct L; subst; reflexivity).
  destruct (sub_of k) as [m'|] eqn:S.
  - assert (y = cloneFieldSingular sc rec (SField (f_slot f)) k x) as E.
    { destruct (is_nil x) eqn:Nx; [|subst y; destruct k; try discriminate; cbn [classify]; destruct (md_foreign _); reflexivity].
      destruct x; try discriminate. subst y. destruct k; try discriminate; injection S as ->; cbn [classify cloneFieldSingular is_nil];
        destruct (md_foreign _); try rewrite (uc_nil sc UC); reflexivity. }
    assert (wt_elem sc k x) as Tx.
    { destruct T' as [->|[(z & -> & [N|N] & _)|(_ & _ & T')]]; [eapply wt_nilsub; eauto|destruct k; discriminate|subst; discriminate|exact T']. }
    destruct (clone_elem (SField (f_slot f)) k x D Tx) as [Lx Ty']. rewrite <- E in *. clearbody y.
    assert (is_num k = false /\ k <> KString) as [N1 N2] by (destruct k; try discriminate; split; reflexivity || discriminate).
    split; [|eapply wt_direct; eauto]. pose proof (like_nil_iff sc C k m' x y S Lx) as NI. destruct (is_nil x) eqn:Nx.
    + destruct x; try discriminate. destruct y; try discriminate. eapply lf_unset; eauto.
    + assert (x <> VNil) by (intros ->; discriminate). assert (y <> VNil) by (intros ->; discriminate). eapply lf_present; eauto.
      replace (deref x) with x by (destruct x; try reflexivity; exfalso; revert Tx; apply wt_elem_notptr).
      replace (deref y) with y by (destruct y; try reflexivity; exfalso; revert Ty'; apply wt_elem_notptr). exact Lx.
  - destruct T' as [->|[(z & -> & N & Tz)|(N1 & N2 & Tx)]].
    + assert (y = VNil) as -> by (subst y; destruct k; try discriminate; reflexivity). split; [eapply lf_unset; eauto|now apply wt_unset].
    + assert (y = VPtr z) as -> by (subst y; destruct N as [N| ->]; [destruct k; discriminate || reflexivity|reflexivity]).
      split; [|exact T]. eapply lf_present; eauto; try discriminate. cbn [deref]. destruct N as [N| ->]; [|apply lv_text; auto].
      destruct (wt_elem_num sc k z N Tz) as (q & -> & R). now apply lv_num.
    + destruct k; try discriminate; try congruence. inversion Tx as [? ? R|? ?|s Bs| |? ? S'|? ? ? S']; subst; try discriminate; subst y; cbn [classify is_nil vbytes].
      * split; [|exact T]. eapply lf_present; eauto; try discriminate. apply lv_text; auto.
      * split; [eapply lf_unset; eauto|exact T].
Qed.

Lemma clone_field_ok m f x cur : In f (md_fields (md_of sc m)) -> is_oneof f = false -> (vdepth x < n)%nat -> wt_field sc (md_of sc m) f x ->
  wt_field sc (md_of sc m) f cur -> same_field sc same_bits same_bits (fun _ => eq) f (zero_of (f_ty f)) cur ->
  lf f x (clone_field sc rec f x cur) /\ wt_field sc (md_of sc m) f (clone_field sc rec f x cur).
Proof.
  intros Hf O D T Tc B. pose proof (wf_ty sc m f W Hf) as WT. pose proof T as T'. apply wt_field_inv in T'. unfold clone_field. unfold is_oneof in O.
  destruct (f_ty f) as [[| | |p|] k|kk vk] eqn:Ty; try discriminate.
  - cbn in WT. apply andb_true_iff in WT as [_ WT]. destruct (sub_of k) eqn:S; [discriminate|]. destruct (is_num k) eqn:N.
    + destruct (wt_elem_num sc k x N T') as (z & -> & R).
      replace (match classify k with CByt => if is_nil (VInt z) then cur else VBytes (vbytes (VInt z)) | CMsg _ | CGrp _ => cloneFieldSingular sc rec (SField (f_slot f)) k (VInt z) | _ => VInt z end)
        with (VInt z) by (destruct k; try discriminate; reflexivity).
      split; [eapply lf_implicit; eauto; now apply lv_num|exact T].
    + destruct k; try discriminate; cbn [classify].
      * split; [eapply lf_implicit; eauto; apply lv_text; auto|exact T].
      * inversion T' as [? ? R|? ?|s Bs| |? ? S'|? ? ? S']; subst; try discriminate; cbn [is_nil vbytes].
        -- split; [eapply lf_implicit; eauto; apply lv_text; auto|exact T].
        -- split; [|exact Tc]. cbn [zero_of classify] in B. eapply lf_implicit; eauto. apply lv_text; auto.
           inversion B as [? ? ? ? E1 N1|? ? ? ? E1 N1 V| |? ? ? ? ? ? ? Na| | | |]; subst; tys; try discriminate; try (now destruct L; discriminate).
           1: inversion V; subst; try discriminate; assumption. 1: reflexivity. now destruct Na.
  - rewrite (blank_unset f LOptional k cur Ty (or_introl eq_refl) B). apply (clone_set_ok m f LOptional k x Hf Ty (or_introl eq_refl) D T T').
  - rewrite (blank_unset f LRequired k cur Ty (or_intror eq_refl) B). apply (clone_set_ok m f LRequired k x Hf Ty (or_intror eq_refl) D T T').
  - destruct T' as [->|(l & -> & Tl)].
    + split; [|exact Tc]. eapply lf_list; eauto. cbn [zero_of] in B. rewrite (blank_list f p k cur Ty B). constructor.
    + destruct (clone_list_ok (f_slot f) k l 0) as [Ls Tz]; [intros y Hy; pose proof (vdepth_list l y Hy); split; [lia|auto]|].
      split; [eapply lf_list; eauto|eapply wt_list; eauto].
  - cbn in WT. apply andb_true_iff in WT as [WT G]. apply andb_true_iff in WT as [KK _]. destruct T' as [->|(l & -> & T1 & T2 & T3)].
    + split; [|exact Tc]. eapply lf_map; eauto. cbn [zero_of] in B. rewrite (blank_map f kk vk cur Ty B). constructor.
    + assert (forall e, In e l -> lv vk (snd e) (cloneFieldSingular sc rec (SKey (f_slot f) (fst e)) vk (snd e)) /\
        wt_elem sc vk (cloneFieldSingular sc rec (SKey (f_slot f) (fst e)) vk (snd e))) as Q.
      { intros [e1 e2] He. pose proof (vdepth_map l e1 e2 He). apply clone_elem; [cbn [snd]; lia|exact (T2 _ He)]. }
      split.
      * eapply lf_map; eauto. cbn [vmap]. assert (forall e, In e l -> wt_elem sc kk (fst e)) as T1' by exact T1. clear T T1 T2 T3 D. induction l as [|e l IHl]; constructor.
        -- cbn [fst snd]. split; [reflexivity|]. split; [|apply Q; now left]. specialize (T1' e (or_introl eq_refl)).
           destruct (is_num kk) eqn:N; [destruct (wt_elem_num sc kk _ N T1') as (z & -> & R); now apply lv_num|].
           apply lv_text; [destruct kk; try discriminate; now left|reflexivity].
        -- apply IHl; intros; [apply Q|apply T1']; now right.
      * eapply wt_map; eauto.
        -- intros e He. apply in_map_iff in He as (e0 & <- & He). exact (T1 _ He).
        -- intros e He. apply in_map_iff in He as (e0 & <- & He). apply Q. exact He.
        -- rewrite map_map. cbn [fst]. exact T3.
Qed.

Lemma clone_member_ok s k x : (vdepth x < n)%nat -> wt_elem sc k x ->
  lv k x (clone_member sc rec s k x) /\ wt_elem sc k (clone_member sc rec s k x).
Proof.
  intros D T. destruct (clone_elem (SField s) k x D T) as [L Ty]. destruct (sub_of k) as [m'|] eqn:S.
  - replace (clone_member sc rec s k x) with (cloneFieldSingular sc rec (SField s) k x); [auto|].
    destruct k; try discriminate; cbn [clone_member classify]; unfold clone_member; cbn [classify]; destruct (md_foreign _) eqn:F; try reflexivity;
      (destruct x; try reflexivity; cbn [is_nil]; unfold cloneFieldSingular; cbn [classify]; rewrite F; apply (uc_nil sc UC)).
  - destruct k; try discriminate; try (split; [exact L|exact T]). unfold clone_member. cbn [classify].
    inversion T as [? ? R|? ?|q Bs| |? ? S'|? ? ? S']; subst; try discriminate; cbn [is_nil vbytes]; (split; [apply lv_text; auto|exact T]).
Qed.

Lemma clone_oneof_ok m f x cur : In f (md_fields (md_of sc m)) -> is_oneof f = true -> (vdepth x < n)%nat -> wt_field sc (md_of sc m) f x ->
  wt_field sc (md_of sc m) f cur -> (forall g, In g (md_fields (md_of sc m)) -> f_slot g = f_slot f -> same_field sc same_bits same_bits (fun _ => eq) g (zero_of (f_ty g)) cur) ->
  lf f x (clone_oneof sc rec (md_of sc m) (f_slot f) x cur) /\ wt_field sc (md_of sc m) f (clone_oneof sc rec (md_of sc m) (f_slot f) x cur).
Proof.
  intros Hf O D T Tc B. pose proof T as T'. apply wt_field_inv in T'. pose proof Tc as Tc'. apply wt_field_inv in Tc'. unfold is_oneof in O.
  destruct (f_ty f) as [[| | |p|] k|kk vk] eqn:Ty; try discriminate.
  destruct T' as [->|(g & k' & y & -> & Hg & Sg & Tg & Tx)]; cbn [clone_oneof].
  - split; [|exact Tc]. eapply lf_other; eauto; [discriminate|]. intros y.
    pose proof (B f Hf eq_refl) as Bf. rewrite Ty in Bf. exact (blank_oneof f k cur y Ty Bf).
  - replace (find_field (f_num g) (md_fields (md_of sc m))) with (Some g) by (symmetry; apply (find_field_in sc m g W Hg)). rewrite Tg.
    cbn [vdepth] in D. destruct (clone_member_ok (f_slot f) k' y ltac:(lia) Tx) as [L Tm]. split; [|eapply wt_oneof; eauto].
    destruct (Z.eq_dec (f_num g) (f_num f)) as [En|En].
    + assert (g = f) as -> by (eapply wf_num_inj; eauto). rewrite Ty in Tg. injection Tg as <-. eapply lf_member; eauto.
    + eapply lf_other; eauto; intros z [= Q _]; congruence.
Qed.
End Level.

Theorem clone_ok n : forall p m v, (vdepth v < n)%nat -> wt_msg sc m v -> md_foreign (md_of sc m) = false ->
  lm m v (clone_msg sc al n p m v) /\ wt_msg sc m (clone_msg sc al n p m v).
Proof.
  induction n as [|n IH]; intros p m v D T F; [lia|]. cbn [clone_msg]. destruct T as [m s u h Ls HF Bu]. unfold clone_body.
  destruct (AL p m) as [TA SA]. destruct TA as [m r ru rh Lr RF Br]. inversion SA as [? ? ? ? ? ? ? SF SU]; subst.
  set (rc := fun st => clone_msg sc al n (st :: p)). set (fs := md_fields (md_of sc m)).
  set (r1 := clone_assign s (clone_field sc rc) (filter (fun f => negb (is_oneof f)) fs) r).
  set (g := fun s' x => clone_oneof sc rc (md_of sc m) s' (slot s s') x).
  assert (forall i, (vdepth (slot s i) < n)%nat) as DS by (intros i; pose proof (depth_slot s i u h); lia).
  assert (forall f, In f fs -> same_field sc same_bits same_bits (fun _ => eq) f (zero_of (f_ty f)) (slot r (f_slot f))) as SF'.
  { intros f Hf. rewrite <- (slot_zero sc m f W Hf). now apply SF. }
  assert (forall f, In f fs -> lf f (slot s (f_slot f)) (slot (fold_left (fun r s' => list_set r s' (g s' (slot r s'))) (oneof_slots [] fs) r1) (f_slot f)) /\
    wt_field sc (md_of sc m) f (slot (fold_left (fun r s' => list_set r s' (g s' (slot r s'))) (oneof_slots [] fs) r1) (f_slot f))) as Q.
  { intros f Hf. pose proof (wf_slot sc m f W Hf) as LT. rewrite <- Lr in LT. destruct (is_oneof f) eqn:O.
    - assert (In (f_slot f) (oneof_slots [] fs)) as Hi by (apply oneof_slots_in; split; [intros []|exists f; auto]).
      rewrite ones_in; [|apply oneof_slots_nodup|exact Hi|unfold r1; now rewrite assign_length].
      assert (slot r1 (f_slot f) = slot r (f_slot f)) as ->.
      { apply assign_other. intros f' Hf' E. apply filter_In in Hf' as [Hf' O']. destruct (is_oneof f') eqn:O''; [discriminate|].
        destruct (wf_compat sc m f f' W Hf Hf') as [_ Cc]; [intros ->; congruence|]. destruct (Cc (eq_sym E)). congruence. }
      unfold g. apply (clone_oneof_ok n p IH); auto. intros g' Hg' E. rewrite <- E. now apply SF'.
    - rewrite ones_other.
      2:{ intros Hi. apply oneof_slots_in in Hi as (_ & f' & Hf' & O' & E). destruct (wf_compat sc m f f' W Hf Hf') as [_ Cc]; [intros ->; congruence|].
          destruct (Cc (eq_sym E)). congruence. }
      unfold r1. rewrite assign_in; [|apply slots_nodup|apply filter_In; rewrite O; auto|exact LT].
      apply (clone_field_ok n p IH); auto. }
  split.
  - constructor.
    + intros f Hf. apply Q. exact Hf.
    + intros K. rewrite K. destruct (0 <? zlen u) eqn:Lu; [reflexivity|]. rewrite <- (SU K). destruct u; [reflexivity|]. cbn in Lu. discriminate.
  - constructor.
    + fold rc. change (length (fold_left (fun r s' => list_set r s' (g s' (slot r s'))) (oneof_slots [] fs) r1) = md_nslots (md_of sc m)). rewrite ones_length. unfold r1. rewrite assign_length. exact Lr.
    + intros f Hf. apply Q. exact Hf.
    + destruct (md_keep (md_of sc m)); [|exact Br]. destruct (0 <? zlen u); assumption.
Qed.
End Clone.
