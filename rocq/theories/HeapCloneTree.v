(** CloneVT on trees: the clone of a message generated code can merge into is one, and a
    clone has nil elements only where the original has. *)
From Coq Require Import ZArith List Bool Lia.
From Verif Require Import PoolSpec.
From Verif Require Import HeapCloneSpec HeapNil.
From Verif Require Import Base BaseFacts Schema Value Helpers Unmarshal Clone Equal WireSpec Typing RecordSpec MsgSpec DecodeSpec ContentSpec CloneSpec
  MarshalFacts OrderFacts TargetFacts UmFacts SameFacts EqualRel EqualFacts RunRel RunFacts PoolFacts PoolRun CloneFacts.
Import ListNotations.
Open Scope Z_scope.

Section Tree.
Variable sc : schema.
Hypothesis W : wf_schema sc = true.
Hypothesis UCL : up_clone_ok sc.
Hypothesis UCM : up_clone_more sc.
Notation nn := (no_nil_elements sc).
Notation blanks := (fun (_ : list step) m => new_msg (md_of sc m)).

(** The member [f] of the clone. *)
Definition cloned (rc : step -> nat -> val -> val) (m : nat) (f : fdesc) (x : val) : val :=
  if is_oneof f then clone_oneof sc rc (md_of sc m) (f_slot f) x VNil else clone_field sc rc f x (zero_of (f_ty f)).
Lemma clone_slots rc m s f : In f (md_fields (md_of sc m)) ->
  slot (fold_left (fun r i => list_set r i (clone_oneof sc rc (md_of sc m) i (slot s i) (slot r i))) (oneof_slots [] (md_fields (md_of sc m)))
    (clone_assign s (clone_field sc rc) (filter (fun f => negb (is_oneof f)) (md_fields (md_of sc m))) (zero_slots (md_of sc m)))) (f_slot f) =
  cloned rc m f (slot s (f_slot f)).
Proof.
  intros Hf. set (fs := md_fields (md_of sc m)) in *. set (g := fun s' x => clone_oneof sc rc (md_of sc m) s' (slot s s') x). unfold cloned.
  set (r1 := clone_assign s (clone_field sc rc) (filter (fun f => negb (is_oneof f)) fs) (zero_slots (md_of sc m))).
  assert (length (zero_slots (md_of sc m)) = md_nslots (md_of sc m)) as Lz by (unfold zero_slots; now rewrite map_length, seq_length).
  pose proof (wf_slot sc m f W Hf) as LT. rewrite <- Lz in LT.
  change (slot (fold_left (fun r s' => list_set r s' (g s' (slot r s'))) (oneof_slots [] fs) r1) (f_slot f) = if is_oneof f then clone_oneof sc rc (md_of sc m) (f_slot f) (slot s (f_slot f)) VNil else clone_field sc rc f (slot s (f_slot f)) (zero_of (f_ty f))).
  destruct (is_oneof f) eqn:O.
  - assert (In (f_slot f) (oneof_slots [] fs)) as Hi by (apply oneof_slots_in; split; [intros []|exists f; auto]).
    rewrite ones_in; [|apply oneof_slots_nodup|exact Hi|unfold r1; now rewrite assign_length].
    assert (slot r1 (f_slot f) = VNil) as ->; [|reflexivity].
    unfold r1. rewrite assign_other.
    + rewrite (slot_zero sc m f W Hf). unfold is_oneof in O. destruct (f_ty f) as [[]|]; try discriminate. reflexivity.
    + intros f' Hf' E. apply filter_In in Hf' as [Hf' O']. destruct (is_oneof f') eqn:O''; [discriminate|].
      destruct (wf_compat sc m f f' W Hf Hf') as [_ Cc]; [intros ->; congruence|]. destruct (Cc (eq_sym E)). congruence.
  - rewrite ones_other.
    2:{ intros Hi. apply oneof_slots_in in Hi as (_ & f' & Hf' & O' & E). destruct (wf_compat sc m f f' W Hf Hf') as [_ Cc]; [intros ->; congruence|].
        destruct (Cc (eq_sym E)). congruence. }
    unfold r1. rewrite assign_in; [|now apply slots_nodup|apply filter_In; rewrite O; auto|exact LT]. now rewrite (slot_zero sc m f W Hf).
Qed.
Lemma hid_nil slots fs : clone_hid slots fs [] = [].
Proof. unfold clone_hid. induction fs as [|f fs IH]; [reflexivity|]. cbn [fold_left]. destruct (f_ty f) as [[| | |p|] k|kk vk]; try exact IH. destruct (slot slots (f_slot f)); exact IH. Qed.

Lemma singular_sub rc st k m v : sub_of k = Some m -> cloneFieldSingular sc rc st k v = if md_foreign (md_of sc m) then up_clone (sc_up sc) m v else rc st m v.
Proof. intros S. unfold cloneFieldSingular. destruct (classify_sub k m S) as [C|C]; rewrite C; reflexivity. Qed.
Lemma member_sub rc i k m v : sub_of k = Some m -> clone_member sc rc i k v = if md_foreign (md_of sc m) then if is_nil v then VNil else up_clone (sc_up sc) m v else rc (SField i) m v.
Proof. intros S. unfold clone_member. rewrite (singular_sub rc (SField i) k m v S). destruct (classify_sub k m S) as [C|C]; rewrite C; destruct (md_foreign (md_of sc m)); reflexivity. Qed.
Lemma field_sub rc f l k m v : f_ty f = TField l k -> l = LOptional \/ l = LRequired -> sub_of k = Some m ->
  clone_field sc rc f v (zero_of (f_ty f)) = if md_foreign (md_of sc m) then if is_nil v then VNil else up_clone (sc_up sc) m v else rc (SField (f_slot f)) m v.
Proof.
  intros T L S. unfold clone_field. rewrite T. rewrite (singular_sub rc (SField (f_slot f)) k m v S).
  destruct (classify_sub k m S) as [C|C]; destruct L; subst l; rewrite C; destruct (md_foreign (md_of sc m)); reflexivity.
Qed.
Lemma in_clone_list rc i k l x : forall j, In x (clone_list sc rc i k j l) -> exists y st, In y l /\ x = cloneFieldSingular sc rc st k y.
Proof.
  induction l as [|a l IH]; intros j H; [destruct H|]. cbn [clone_list] in H. destruct H as [<-|H]; [exists a; eauto using in_eq|]. destruct (IH _ H) as (y & st & Hy & E). exists y, st. split; [now right|exact E].
Qed.

(** Messages are cloned to messages, nil to nil. *)
Lemma clone_nil n p m : clone_msg sc blanks n p m VNil = VNil.
Proof. destruct n; reflexivity. Qed.
Lemma clone_vmsg n p m s u h : exists s' u', clone_msg sc blanks (S n) p m (VMsg s u h) = VMsg s' u' [].
Proof. cbn [clone_msg clone_body new_msg]. rewrite hid_nil. eauto. Qed.

Lemma sub_wt m f l k m' x : f_ty f = TField l k -> l = LOptional \/ l = LRequired -> sub_of k = Some m' -> wt_field sc (md_of sc m) f x -> x = VNil \/ wt_msg sc m' x.
Proof.
  intros T L S H. apply wt_field_inv in H. rewrite T in H. assert (wt_elem sc k x -> x = VNil \/ wt_msg sc m' x) as K.
  { intros E. inversion E as [? ? R| | | |? ? S0|? ? ? S0 M]; subst; try discriminate; [destruct k; discriminate|auto|right; congruence]. }
  destruct L; subst l; (destruct H as [->|[(y & -> & [K0| ->] & _)|(_ & _ & H)]]; [auto|destruct k; discriminate|discriminate|auto]).
Qed.
Lemma elem_wt k m' x : sub_of k = Some m' -> wt_elem sc k x -> x = VNil \/ wt_msg sc m' x.
Proof. intros S E. inversion E as [? ? R| | | |? ? S0|? ? ? S0 M]; subst; try discriminate; [destruct k; discriminate|auto|right; congruence]. Qed.

Theorem clone_merge n : forall p m v, (vdepth v < n)%nat -> md_foreign (md_of sc m) = false -> target sc m v -> mergeable sc m (clone_msg sc blanks n p m v).
Proof.
  induction n as [|n IH]; intros p m v D F T; [lia|]. destruct (target_vmsg sc m v T) as (s & u & h & ->). apply target_iff in T as (Ls & _ & _ & T).
  cbn [clone_msg clone_body new_msg]. rewrite hid_nil. set (rc := fun st => clone_msg sc blanks n (st :: p)).
  assert (forall i, (vdepth (slot s i) < n)%nat) as DS by (intros i; pose proof (depth_slot s i u h); lia).
  assert (forall st m' x, x = VNil \/ target sc m' x -> (vdepth x < n)%nat -> x <> VNil ->
    mergeable sc m' (if md_foreign (md_of sc m') then if is_nil x then VNil else up_clone (sc_up sc) m' x else rc st m' x)) as K.
  { intros st m' x [E|Tx] Dx Nx; [contradiction|]. destruct (md_foreign (md_of sc m')) eqn:F'.
    - replace (is_nil x) with false by (destruct x; try reflexivity; contradiction). now apply (uc_target sc UCM).
    - unfold rc. now apply IH. }
  constructor.
  - intros f l k m' Hf Tf L S. rewrite clone_slots by assumption. unfold cloned. replace (is_oneof f) with false by (unfold is_oneof; rewrite Tf; destruct L; subst l; reflexivity).
    rewrite (field_sub rc f l k m' _ Tf L S). destruct (T f Hf) as [Wf [M _]]. destruct (M l k m' Tf L S) as [E|Mx].
    + left. rewrite E. cbn [is_nil]. unfold rc. rewrite clone_nil. destruct (md_foreign (md_of sc m')); reflexivity.
    + right. apply K; auto; [|intros E; rewrite E in Mx; inversion Mx]. right. split; [|exact Mx]. destruct (sub_wt m f l k m' _ Tf L S Wf) as [E|X]; [rewrite E in Mx; inversion Mx|exact X].
  - intros f k m' x Hf Tf S E. rewrite clone_slots in E by assumption. unfold cloned in E. replace (is_oneof f) with true in E by (unfold is_oneof; rewrite Tf; reflexivity).
    unfold clone_oneof in E. destruct (T f Hf) as [Wf [_ M]]. destruct (slot s (f_slot f)) as [|z|z|z|z|l|l|n0 y|z uu hh|o z|o z] eqn:Es; try discriminate.
    destruct (find_field n0 (md_fields (md_of sc m))) as [g|] eqn:Fg; [|discriminate]. apply find_field_some in Fg as [Hg En]. destruct (f_ty g) as [lg kg|] eqn:Tg; [|discriminate].
    injection E as En0 <-. assert (g = f) as -> by (eapply wf_num_inj; eauto; congruence). rewrite Tf in Tg. injection Tg as <- <-. subst n0.
    rewrite (member_sub rc _ k m' y S). pose proof (M k m' y Tf S eq_refl) as My. apply K.
    + right. split; [|exact My]. apply wt_field_inv in Wf. rewrite Tf in Wf. destruct Wf as [Wf|(g & k' & z & Eg & Hg' & _ & Tg & Tz)]; [discriminate|]. injection Eg as Eg <-.
      assert (g = f) as -> by (eapply wf_num_inj; eauto; congruence). rewrite Tf in Tg. injection Tg as <-. destruct (elem_wt k m' y S Tz) as [->|X]; [inversion My|exact X].
    + pose proof (DS (f_slot f)) as D'. rewrite Es in D'. cbn [vdepth] in D'. lia.
    + intros ->. inversion My.
  - intros f p0 k m' x _ _ _ Hx. destruct (f_slot f); destruct Hx.
Qed.

Theorem clone_no_nil n : forall p m v, (vdepth v < n)%nat -> md_foreign (md_of sc m) = false -> wt_msg sc m v -> nn m v -> nn m (clone_msg sc blanks n p m v).
Proof.
  induction n as [|n IH]; intros p m v D F T N; [lia|]. inversion T as [? s u h Ls Ts Bu]; subst.
  cbn [clone_msg clone_body new_msg]. rewrite hid_nil. set (rc := fun st => clone_msg sc blanks n (st :: p)).
  assert (forall i, (vdepth (slot s i) < n)%nat) as DS by (intros i; pose proof (depth_slot s i u h); lia).
  pose proof (proj1 (nn_iff sc m s u h F) N) as NF.
  assert (forall st m' x, x = VNil \/ wt_msg sc m' x -> (vdepth x < n)%nat -> nn m' x -> nn m' (rc st m' x)) as K.
  { intros st m' x [->|Tx] Dx Nx; [unfold rc; rewrite clone_nil; apply nn_nil|]. destruct (md_foreign (md_of sc m')) eqn:F'; [now apply nn_foreign|]. unfold rc. now apply IH. }
  assert (forall st k m' x, sub_of k = Some m' -> wt_elem sc k x -> (vdepth x < n)%nat -> nn m' x -> nn m' (cloneFieldSingular sc rc st k x)) as Ks.
  { intros st k m' x S Tx Dx Nx. rewrite (singular_sub rc st k m' x S). destruct (md_foreign (md_of sc m')) eqn:F'; [now apply nn_foreign|]. apply K; auto. eapply elem_wt; eauto. }
  apply nn_iff; [exact F|]. intros f Hf. rewrite clone_slots by assumption. destruct (NF f Hf) as [N1 N2]. pose proof (Ts f Hf) as Tf. pose proof (DS (f_slot f)) as Df.
  set (x := slot s (f_slot f)) in *. split.
  - intros p0 k m' l T0 S P E Hn. unfold cloned in E. replace (is_oneof f) with false in E by (unfold is_oneof; now rewrite T0). unfold clone_field in E. rewrite T0 in E. cbn [zero_of] in E.
    destruct x as [| | | | |lx| | | | |] eqn:Ex; try discriminate. injection E as <-. apply in_clone_list in Hn as (y & st & Hy & Ey). apply wt_field_inv in Tf. rewrite T0 in Tf. destruct Tf as [Tf|(lx' & [= <-] & Tx)]; [discriminate|].
    rewrite (singular_sub rc st k m' y S) in Ey. destruct (elem_wt k m' y S (Tx y Hy)) as [->|Ty]; [exact (N1 p0 k m' lx T0 S P eq_refl Hy)|].
    destruct (md_foreign (md_of sc m')) eqn:F'.
    + pose proof (uc_msg sc UCL m' y F' Ty) as X. rewrite <- Ey in X. inversion X.
    + pose proof (depth_list y lx Hy) as Dy. inversion Ty as [? s1 u1 h1]; subst. unfold rc in Ey. destruct n as [|n0]; [lia|]. destruct (clone_vmsg n0 (st :: p) m' s1 u1 h1) as (s' & u' & E'). rewrite E' in Ey. discriminate.
  - intros k z m' H S. remember (cloned rc m f x) as cx eqn:Ef. unfold cloned in Ef. destruct H as [f p0 k l z T0 Hz|f kk k l y z T0 Hz|f l0 k z T0 L Nz|f k z T0].
    + replace (is_oneof f) with false in Ef by (unfold is_oneof; now rewrite T0). unfold clone_field in Ef. rewrite T0 in Ef. cbn [zero_of] in Ef. destruct x as [| | | | |lx| | | | |] eqn:Ex; try discriminate. injection Ef as ->.
      apply in_clone_list in Hz as (y & st & Hy & ->). apply wt_field_inv in Tf. rewrite T0 in Tf. destruct Tf as [Tf|(lx' & [= <-] & Tx)]; [discriminate|].
      apply Ks; auto; [pose proof (depth_list y lx Hy); lia|]. eapply N2; [|exact S]. eapply holds_list; eauto.
    + replace (is_oneof f) with false in Ef by (unfold is_oneof; now rewrite T0). unfold clone_field in Ef. rewrite T0 in Ef. cbn [zero_of] in Ef. destruct x as [| | | | | |lx| | | |] eqn:Ex; try discriminate. injection Ef as ->.
      apply in_map_iff in Hz as ([k1 v1] & Ez & He). cbn [fst snd] in Ez. injection Ez as _ <-. apply wt_field_inv in Tf. rewrite T0 in Tf. destruct Tf as [Tf|(lx' & [= <-] & _ & Tx & _)]; [discriminate|].
      apply Ks; auto; [exact (Tx _ He)|pose proof (depth_map _ lx He); cbn [snd] in *; lia|]. eapply N2; [|exact S]. eapply holds_map; eauto.
    + replace (is_oneof f) with false in Ef by (unfold is_oneof; rewrite T0; destruct L; subst l0; reflexivity). rewrite (field_sub rc f l0 k m' _ T0 L S) in Ef. rewrite Ef.
      destruct (md_foreign (md_of sc m')) eqn:F'; [now apply nn_foreign|]. destruct (sub_wt m f l0 k m' x T0 L S Tf) as [E|Tx]; [rewrite E; unfold rc; rewrite clone_nil; apply nn_nil|].
      apply K; auto. eapply N2; [|exact S]. eapply holds_set; eauto. intros E. rewrite E in Tx. inversion Tx.
    + replace (is_oneof f) with true in Ef by (unfold is_oneof; now rewrite T0). unfold clone_oneof in Ef. destruct x as [| | | | | | |n0 y| | |] eqn:Ex; try discriminate.
      destruct (find_field n0 (md_fields (md_of sc m))) as [g|] eqn:Fg; [|discriminate]. apply find_field_some in Fg as [Hg En]. destruct (f_ty g) as [lg kg|] eqn:Tg; [|discriminate].
      injection Ef as En0 Ez. assert (g = f) as -> by (eapply wf_num_inj; eauto; congruence). rewrite T0 in Tg. injection Tg as <- <-. subst n0.
      rewrite (member_sub rc _ k m' y S) in Ez. rewrite Ez. destruct (md_foreign (md_of sc m')) eqn:F'; [now apply nn_foreign|].
      apply wt_field_inv in Tf. rewrite T0 in Tf. destruct Tf as [Tf|(g & k' & z' & Eg & Hg' & _ & Tg & Tz)]; [discriminate|]. injection Eg as Eg <-.
      assert (g = f) as -> by (eapply wf_num_inj; eauto; congruence). rewrite T0 in Tg. injection Tg as <-. apply K; [eapply elem_wt; eauto|cbn [vdepth] in Df; lia|].
      eapply N2; [|exact S]. now apply holds_member.
Qed.

Theorem clone_target m v : md_foreign (md_of sc m) = false -> target sc m v -> target sc m (CloneVT sc m v).
Proof.
  intros F T. split; [|apply clone_merge; auto]. apply (clone_ok sc blanks W UCL); auto; [|apply T]. intros _ m'. split; [now apply target_new|]. apply new_self; auto; reflexivity.
Qed.
End Tree.
