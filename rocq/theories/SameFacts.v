(** [same_msg] is monotone, symmetric and transitive in its parameters, and
    reflexive on well-typed messages. *)
From Coq Require Import ZArith List Bool Lia Permutation.
From Verif Require Import Base BaseFacts Schema Value WireSpec Typing RecordSpec DecodeSpec ContentSpec MarshalFacts TargetFacts.
Import ListNotations.
Open Scope Z_scope.

Lemma slot_zero sc m f : wf_schema sc = true -> In f (md_fields (md_of sc m)) ->
  slot (zero_slots (md_of sc m)) (f_slot f) = zero_of (f_ty f).
Proof.
  intros W Hf. pose proof (wf_slot sc m f W Hf) as L. unfold slot, zero_slots.
  rewrite (nth_indep _ VNil (zero_slot (md_of sc m) 0)) by (rewrite map_length, seq_length; assumption).
  rewrite map_nth, seq_nth by assumption. unfold zero_slot. cbn [Nat.add].
  destruct (find _ _) as [g|] eqn:E.
  - apply find_some in E as [Hg Eg]. apply Nat.eqb_eq in Eg.
    assert (forall x y : fdesc, {x = y} + {x <> y}) as D by (repeat decide equality).
    destruct (D f g) as [->|Ne]; [reflexivity|].
    destruct (wf_compat sc m f g W Hf Hg Ne) as [_ C]. destruct (C (eq_sym Eg)) as [C1 C2].
    unfold is_oneof in *. destruct (f_ty f) as [[]|]; try discriminate. destruct (f_ty g) as [[]|]; try discriminate. reflexivity.
  - apply find_none with (x := f) in E; [|assumption]. now rewrite Nat.eqb_refl in E.
Qed.

Lemma Forall2_flip {A C} (R : A -> C -> Prop) l l' : Forall2 R l l' -> Forall2 (fun y x => R x y) l' l.
Proof. induction 1; constructor; auto. Qed.

(** * Symmetry *)
Section Sym.
Variable sc : schema.
Variables E I E' I' : kind -> Z -> Z -> Prop.
Variables P P' : nat -> val -> val -> Prop.
Hypothesis HE : forall k x y, E k x y -> E' k y x.
Hypothesis HI : forall k x y, I k x y -> I' k y x.
Hypothesis HP : forall m x y, P m x y -> P' m y x.

Lemma sym_entries kk vk l : forall l',
  Forall2 (fun e e' => same_value sc E' I' P' kk (fst e') (fst e) /\ same_value sc E' I' P' vk (snd e') (snd e)) l l' ->
  Forall2 (fun e e' => same_value sc E' I' P' kk (fst e) (fst e') /\ same_value sc E' I' P' vk (snd e) (snd e')) l' l.
Proof. intros l' H. induction H; constructor; auto. Qed.

Fixpoint sym_value k a b (H : same_value sc E I P k a b) {struct H} : same_value sc E' I' P' k b a
with sym_field f a b (H : same_field sc E I P f a b) {struct H} : same_field sc E' I' P' f b a
with sym_msg m a b (H : same_msg sc E I P m a b) {struct H} : same_msg sc E' I' P' m b a.
Proof.
  - destruct H as [k x y N X|k a b K X|k m a b S F X|k m a b S F X].
    + apply sv_num; auto.
    + apply sv_text; auto.
    + eapply sv_msg; eauto.
    + eapply sv_up; eauto.
  - destruct H as [f k x y T N X|f k a b T N X|f l k T L|f l k a b T L Na Nb X|f p k a b T X|f kk vk a b l T Pm X|f k a b T Na Nb|f k x y T X].
    + eapply sf_number; eauto.
    + eapply sf_implicit; eauto.
    + eapply sf_unset; eauto.
    + eapply sf_present; eauto.
    + eapply sf_list; eauto. induction X as [|x y l l' Q X IH]; constructor; auto.
    + assert (Forall2 (fun e e' => same_value sc E' I' P' kk (fst e') (fst e) /\ same_value sc E' I' P' vk (snd e') (snd e)) l (vmap b)) as Y.
      { clear Pm. induction X as [|x y l l' Q X IH]; constructor; auto. destruct Q. auto. }
      destruct (Permutation_Forall2 (Permutation_sym Pm) Y) as (l2 & P2 & F2).
      eapply sf_map; [exact T|exact P2|]. apply sym_entries. exact F2.
    + eapply sf_other; eauto.
    + eapply sf_member; eauto.
  - destruct H as [m s u h s' u' h' F U]. constructor; [auto|]. intros K. symmetry. auto.
Qed.
End Sym.

(** * Transitivity *)
Section Trans.
Variable sc : schema.
Variables E1 I1 E2 I2 E3 I3 : kind -> Z -> Z -> Prop.
Variables P1 P2 P3 : nat -> val -> val -> Prop.
Hypothesis HE : forall k x y z, E1 k x y -> E2 k y z -> E3 k x z.
Hypothesis HI : forall k x y z, I1 k x y -> I2 k y z -> I3 k x z.
Hypothesis HP : forall m x y z, P1 m x y -> P2 m y z -> P3 m x z.
Notation sv1 := (same_value sc E1 I1 P1). Notation sv2 := (same_value sc E2 I2 P2). Notation sv3 := (same_value sc E3 I3 P3).

Lemma trans_forall {A} (R2 R3 : A -> A -> Prop) l1 l2 : Forall2 (fun x y => forall z, R2 y z -> R3 x z) l1 l2 ->
  forall l3, Forall2 R2 l2 l3 -> Forall2 R3 l1 l3.
Proof. induction 1; intros l3 H3; inversion H3; subst; constructor; auto. Qed.

Ltac kinds := match goal with
  | N : is_num ?k = true, K : ?k = KString \/ ?k = KBytes |- _ => destruct K; subst; discriminate
  | N : is_num ?k = true, K : sub_of ?k = Some _ |- _ => destruct k; discriminate
  | N : sub_of ?k = Some _, K : ?k = KString \/ ?k = KBytes |- _ => destruct K; subst; discriminate
  end.
Ltac labels := match goal with
  | A : f_ty ?f = _, C : f_ty ?f = _ |- _ => rewrite A in C; try discriminate; injection C; clear C; intros; subst
  end.
Ltac bad := match goal with
  | L : ?x = LOptional \/ ?x = LRequired |- _ => destruct L; discriminate
  | N : VNil <> VNil |- _ => now destruct N
  end.

Fixpoint trans_value k a b (H : sv1 k a b) {struct H} : forall c, sv2 k b c -> sv3 k a c
with trans_field f a b (H : same_field sc E1 I1 P1 f a b) {struct H} : forall c, same_field sc E2 I2 P2 f b c -> same_field sc E3 I3 P3 f a c
with trans_msg m a b (H : same_msg sc E1 I1 P1 m a b) {struct H} : forall c, same_msg sc E2 I2 P2 m b c -> same_msg sc E3 I3 P3 m a c.
Proof.
  - destruct H as [k x y N X|k a b K X|k m a b S F X|k m a b S F X]; intros c H2.
    + inversion H2; subst; try kinds. apply sv_num; eauto.
    + inversion H2; subst; try kinds. apply sv_text; [auto|congruence].
    + inversion H2; subst; try kinds; assert (m0 = m) as -> by congruence; [|congruence]. eapply sv_msg; eauto.
    + inversion H2; subst; try kinds; assert (m0 = m) as -> by congruence; [congruence|]. eapply sv_up; eauto.
  - destruct H as [f k x y T N X|f k a b T N X|f l k T L|f l k a b T L Na Nb X|f p k a b T X|f kk vk a b l T Pm X|f k a b T Na Nb|f k x y T X]; intros c H2.
    + inversion H2; subst; labels; try bad; try congruence. eapply sf_number; eauto.
    + inversion H2; subst; labels; try bad; try congruence. eapply sf_implicit; eauto.
    + inversion H2; subst; labels; try bad; try congruence. eapply sf_unset; eauto.
    + inversion H2; subst; labels; try bad; try congruence. eapply sf_present; eauto.
    + inversion H2; subst; labels; try bad; try congruence. eapply sf_list; eauto.
      eapply (trans_forall (sv2 _)); [|eassumption]. clear -X trans_value. induction X as [|x y l l1 Q X IH]; constructor; [exact (trans_value _ _ _ Q)|exact IH].
    + inversion H2 as [| | | | |? kk2 vk2 ? ? l2 T2 Pm2 X2| |]; subst; try (labels; fail); try congruence.
      rewrite T in T2. injection T2 as <- <-.
      assert (Forall2 (fun e e' => sv1 kk (fst e) (fst e') /\ sv1 vk (snd e) (snd e')) l (vmap b)) as X' by exact X.
      assert (Forall2 (fun e e' => forall e'', sv2 kk (fst e') (fst e'') /\ sv2 vk (snd e') (snd e'') -> sv3 kk (fst e) (fst e'') /\ sv3 vk (snd e) (snd e'')) l (vmap b)) as Y.
      { clear -X trans_value. induction X as [|x y l l' [Q1 Q2] X IH]; constructor; auto. intros e [A1 A2]. split; eauto. }
      assert (exists l', Permutation l l' /\ Forall2 (fun e e' => forall e'', sv2 kk (fst e') (fst e'') /\ sv2 vk (snd e') (snd e'') -> sv3 kk (fst e) (fst e'') /\ sv3 vk (snd e) (snd e'')) l' l2) as (l' & Pl & Fl).
      { apply Forall2_flip in Y. destruct (Permutation_Forall2 Pm2 Y) as (l' & A1 & A2). exists l'. split; [assumption|]. now apply Forall2_flip in A2. }
      eapply sf_map; [eassumption|eapply Permutation_trans; eassumption|].
      revert X2. apply (trans_forall _ _ _ _ Fl).
    + inversion H2; subst; labels; try bad; try congruence. eapply sf_other; eauto.
    + inversion H2; subst; labels; try bad; try congruence.
      eapply sf_member; eauto.
  - destruct H as [m s u h s' u' h' F U]. intros c H2. inversion H2; subst. constructor; [eauto|]. intros K. rewrite (U K). auto.
Qed.
End Trans.

(** * Reflexivity *)
Section Refl.
Variable sc : schema.
Variables E I : kind -> Z -> Z -> Prop.
Variable P : nat -> val -> val -> Prop.
Hypothesis W : wf_schema sc = true.
Hypothesis KE : forall k z, key_kind k = true -> E k z z.
Hypothesis I0 : forall k, I k 0 0.
Notation sv := (same_value sc E I P). Notation sf := (same_field sc E I P). Notation sm := (same_msg sc E I P).

Lemma zero_self m f : In f (md_fields (md_of sc m)) -> sf f (zero_of (f_ty f)) (zero_of (f_ty f)).
Proof.
  intros Hf. pose proof (wf_ty sc m f W Hf) as WT. unfold wf_type in WT. destruct (f_ty f) as [[| | |p|] k|kk vk] eqn:Ty.
  - cbn [zero_of]. destruct (is_num k) eqn:N.
    + replace (match classify k with CStr => VStr [] | CByt | CMsg _ | CGrp _ => VNil | _ => VInt 0 end) with (VInt 0) by (destruct k; try discriminate; reflexivity).
      eapply sf_number; eauto.
    + eapply sf_implicit; eauto. destruct k; try discriminate; try (apply sv_text; auto; fail); rewrite andb_false_r in WT; discriminate.
  - eapply sf_unset; eauto.
  - eapply sf_unset; eauto.
  - eapply sf_list; eauto. constructor.
  - eapply sf_other; eauto; discriminate.
  - eapply sf_map; eauto. constructor.
Qed.
Lemma new_self m : sm m (new_msg (md_of sc m)) (new_msg (md_of sc m)).
Proof.
  constructor; [|reflexivity]. intros f Hf. rewrite (slot_zero sc m f W Hf). now apply (zero_self m).
Qed.

Lemma Forall2_self {A} (R : A -> A -> Prop) l : (forall x, In x l -> R x x) -> Forall2 R l l.
Proof. induction l; constructor; [apply H; now left|]. apply IHl. intros. apply H. now right. Qed.

Lemma refl_msg n : forall m v, (vdepth v < n)%nat -> wt_msg sc m v -> md_foreign (md_of sc m) = false ->
  all_numbers sc m v (fun k z => E k z z /\ I k z z) ->
  all_foreign sc m v (fun m' x => P m' (or_empty sc m' x) (or_empty sc m' x)) -> sm m v v.
Proof.
  induction n as [|n IH]; [lia|]. intros m v D T F AN AF. inversion T as [m0 s u h Ls HF Bu]; subst.
  constructor; [|reflexivity]. intros f Hf. pose proof (HF f Hf) as Tf. pose proof (wf_ty sc m f W Hf) as WT.
  pose proof (depth_slot s (f_slot f) u h) as Ds. assert (vdepth (slot s (f_slot f)) < n)%nat as Ds' by lia. clear Ds. rename Ds' into Ds.
  assert (forall k z, number f (slot s (f_slot f)) k z -> E k z z /\ I k z z) as NU by (intros; eapply AN; eauto; apply in_self).
  assert (forall k x, (vdepth x < n)%nat -> wt_elem sc k x -> (sub_of k <> None -> holds f (slot s (f_slot f)) k x) ->
    (forall z, x = VInt z -> is_num k = true -> E k z z) -> sv k x x) as EL.
  { intros k x Dx Tx Hh Hz. destruct (is_num k) eqn:N.
    { destruct (wt_elem_num sc k x N Tx) as (z & -> & R). apply sv_num; auto. }
    destruct (sub_of k) as [m1|] eqn:Sk; [|destruct k; try discriminate; apply sv_text; auto].
    specialize (Hh ltac:(discriminate)). destruct (md_foreign (md_of sc m1)) eqn:F1.
    - eapply sv_up; eauto. apply AF; [|assumption]. eapply in_sub; eauto. apply in_self.
    - eapply sv_msg; eauto. destruct (wt_elem_sub sc k m1 x Sk Tx) as [->|Tm]; [apply new_self|].
      replace (or_empty sc m1 x) with x by (inversion Tm; reflexivity). apply IH; auto.
      + intros m' s' u' h' f' k' z' Hw. apply (AN m' s' u' h' f' k' z'). eapply in_sub; eauto.
      + intros m' x' Hw. apply AF. eapply in_sub; eauto. }
  apply wt_field_inv in Tf. unfold wf_type in WT. set (v := slot s (f_slot f)) in *. clearbody v. destruct (f_ty f) as [lbl k|kk vk] eqn:Ty.
  - assert (lbl = LOptional \/ lbl = LRequired -> v = VNil \/ (exists x, v = VPtr x /\ (is_num k = true \/ k = KString) /\ wt_elem sc k x) \/
       (is_num k = false /\ k <> KString /\ wt_elem sc k v) -> sf f v v) as PR.
    { intros L [->|[(x & -> & K & Tx)|(K1 & K2 & Tx)]]; [eapply sf_unset; eauto| |].
      - eapply sf_present; eauto; try discriminate. cbn [deref]. apply EL; auto.
        + cbn [vdepth] in Ds. lia.
        + intros Hs. destruct K as [K| ->]; [destruct k; now destruct Hs|now destruct Hs].
        + intros z -> N. apply NU. eapply number_set; eauto.
      - destruct (is_nil v) eqn:Nv; [destruct v; try discriminate; eapply sf_unset; eauto|].
        assert (v <> VNil) as Nn by (intros ->; discriminate).
        eapply sf_present; eauto. replace (deref v) with v by (destruct v; try reflexivity; exfalso; revert Tx; apply wt_elem_notptr).
        apply EL; auto; [|congruence]. intros _. eapply holds_set; eauto. }
    destruct lbl as [| | |pk|]; auto.
    + destruct (is_num k) eqn:N.
      * destruct (wt_elem_num sc k v N Tf) as (z & Ez & R). rewrite Ez. eapply sf_number; eauto. apply NU. rewrite Ez. eapply number_implicit; eauto.
      * eapply sf_implicit; eauto. destruct (sub_of k) eqn:Sk; [rewrite andb_false_r in WT; discriminate|].
        apply EL; auto; [now intros []|congruence].
    + eapply sf_list; eauto. destruct Tf as [->|(l & -> & Tf)]; [constructor|]. cbn [vlist]. apply Forall2_self. intros x Hx.
      pose proof (depth_list x l Hx). apply EL; auto; [lia| |].
      * intros _. eapply holds_list; eauto.
      * intros z -> N. apply NU. eapply number_list; eauto.
    + destruct Tf as [->|(g & k' & x & -> & Hg & Sg & Tg & Tx)]; [eapply sf_other; eauto; discriminate|].
      destruct (Z.eq_dec (f_num g) (f_num f)) as [En|En].
      * assert (g = f) as -> by (eapply wf_num_inj; eauto). rewrite Ty in Tg. injection Tg as <-.
        eapply sf_member; eauto. cbn [vdepth] in Ds. apply EL; auto; [lia| |].
        -- intros _. eapply holds_member; eauto.
        -- intros z -> N. apply NU. eapply number_member; eauto.
      * eapply sf_other; eauto; intros y [= Q _]; congruence.
  - rewrite !andb_true_iff in WT. destruct WT as [[Kk _] Gv].
    eapply sf_map; [eassumption|apply Permutation_refl|]. destruct Tf as [->|(l & -> & T1 & T2 & T3)]; [constructor|]. cbn [vmap].
    apply Forall2_self. intros [ek ex] He. pose proof (depth_map _ l He) as Dm. cbn [fst snd] in *. split.
    + pose proof (T1 _ He) as Te. cbn in Te. destruct (is_num kk) eqn:N.
      * destruct (wt_elem_num sc kk ek N Te) as (z & -> & R). apply sv_num; auto.
      * apply sv_text; [|reflexivity]. destruct kk; try discriminate. now left.
    + pose proof (T2 _ He) as Te. cbn in Te. apply EL; auto; [lia| |].
      * intros _. eapply holds_map; eauto.
      * intros z -> N. apply NU. eapply number_map; eauto.
Qed.
End Refl.
