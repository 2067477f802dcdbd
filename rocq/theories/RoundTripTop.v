(** Round trip of the entry points; messages seen under another map order. *)
From Coq Require Import ZArith List Bool Lia Permutation.
From Verif Require Import Base BaseFacts Schema Value Helpers Size Marshal Unmarshal WireSpec Typing RecordSpec MsgSpec DecodeSpec ContentSpec
  VarintFacts NumFacts OrderFacts SimFacts MarshalFacts MarshalTop DecodeFacts TargetFacts SameFacts RoundTrip ReorderFacts.
Import ListNotations.
Open Scope Z_scope.

Section Top.
Variables (sc : schema) (P : nat -> val -> val -> Prop).
Hypothesis W : wf_schema sc = true.
Hypothesis UE : up_enc_ok sc.
Hypothesis UD : up_dec_ok sc.

Lemma marshal_decodes strict m v bs : md_foreign (md_of sc m) = false -> wt_msg sc m v -> decodable sc P m v ->
  MarshalVT sc strict m v = Ok (Some bs) -> small bs ->
  bytes_ok bs = true /\ exists v', decodes sc m bs (new_msg (md_of sc m)) v' /\ same_msg sc same_bits zero_normal P m v v'.
Proof.
  intros F T DC E S. assert (wt_ptrmsg sc m v) as T' by now right.
  pose proof (top_marshal sc W UE strict m v T' ltac:(intros ->; inversion T)) as TM.
  pose proof (Initialized_missing sc m v W T') as IM.
  destruct (Initialized sc m v) eqn:In; [|rewrite E in TM; destruct TM; discriminate].
  rewrite E in TM. injection TM as ->.
  assert (~ MissingRequired sc m v) as NM by (intros M; apply IM in M; discriminate).
  split; [eapply enc_bytes; eauto; intros; apply order_perm|].
  destruct (encoding_rt sc (order sc strict) P W ltac:(intros; apply order_perm) UD (Datatypes.S (vdepth v)) m v T' ltac:(lia) F DC NM) as (v' & D & Sm).
  - unfold small in S. exact S.
  - exists v'. split; [exact D|]. inversion T; subst. exact Sm.
Qed.

Lemma marshal_unmarshal strict m v bs : md_foreign (md_of sc m) = false -> wt_msg sc m v -> decodable sc P m v ->
  MarshalVT sc strict m v = Ok (Some bs) -> small bs ->
  exists v', UnmarshalVT sc m bs (new_msg (md_of sc m)) = Ok v' /\ same_msg sc same_bits zero_normal P m v v'.
Proof.
  intros F T DC E S. destruct (marshal_decodes strict m v bs F T DC E S) as (Bb & v' & D & Sm).
  exists v'. split; [|exact Sm]. destruct (dec_ok sc W UD) as (_ & PD & _).
  specialize (PD _ _ _ _ D (target_new sc W m) Bb S (Datatypes.S (length bs)) 0 ltac:(lia)).
  unfold decodeMessage in PD. rewrite F in PD. exact PD.
Qed.
End Top.

(** A message seen under another map order has the same content. *)
Section Reorder.
Variables (sc : schema) (P : nat -> val -> val -> Prop).
Hypothesis W : wf_schema sc = true.
Hypothesis HP : forall m x y, md_foreign (md_of sc m) = true -> reorder x y -> P m (or_empty sc m x) (or_empty sc m y).
Notation sv := (same_value sc same_bits same_bits P). Notation sf := (same_field sc same_bits same_bits P). Notation sm := (same_msg sc same_bits same_bits P).

Lemma reorder_same n : forall m v v', (vdepth v < n)%nat -> wt_msg sc m v -> md_foreign (md_of sc m) = false -> reorder v v' -> sm m v v'.
Proof.
  induction n as [|n IH]; [lia|]. intros m v v' D T F R. inversion T as [m0 s u h Ls HF Bu]; subst.
  assert (exists s', v' = VMsg s' u h /\ Forall2 reorder s s') as (s' & -> & Rs).
  { inversion R; subst; eauto. exists s. split; [reflexivity|]. apply Forall2_refl. apply ro_refl. }
  constructor; [|reflexivity]. intros f Hf. pose proof (HF f Hf) as Tf. pose proof (wf_ty sc m f W Hf) as WT.
  pose proof (depth_slot s (f_slot f) u h) as Ds. assert (vdepth (slot s (f_slot f)) < n)%nat as Ds' by lia. clear Ds. rename Ds' into Ds.
  pose proof (reorder_slot s s' (f_slot f) Rs) as Ro.
  set (v := slot s (f_slot f)) in *. set (v' := slot s' (f_slot f)) in *. clearbody v v'. clear s s' Rs R T D Ls HF.
  assert (forall k x y, (vdepth x < n)%nat -> wt_elem sc k x -> reorder x y -> sv k x y) as EL.
  { intros k x y Dx Tx Rx. destruct (is_num k) eqn:N.
    { destruct (wt_elem_num sc k x N Tx) as (z & -> & R). inversion Rx; subst. apply sv_num; auto. reflexivity. }
    destruct (sub_of k) as [m1|] eqn:Sk; [|destruct k; try discriminate; apply sv_text; auto using reorder_vbytes].
    destruct (md_foreign (md_of sc m1)) eqn:F1; [eapply sv_up; eauto|].
    eapply sv_msg; eauto. destruct (wt_elem_sub sc k m1 x Sk Tx) as [->|Tm].
    - inversion Rx; subst. apply new_self; auto. reflexivity.
    - specialize (IH m1 x y Dx Tm F1 Rx). inversion Tm; subst. inversion Rx; subst; exact IH. }
  apply wt_field_inv in Tf. unfold wf_type in WT. destruct (f_ty f) as [lbl k|kk vk] eqn:Ty.
  - assert (lbl = LOptional \/ lbl = LRequired -> v = VNil \/ (exists x, v = VPtr x /\ (is_num k = true \/ k = KString) /\ wt_elem sc k x) \/
       (is_num k = false /\ k <> KString /\ wt_elem sc k v) -> sf f v v') as PR.
    { intros L [->|[(x & -> & K & Tx)|(K1 & K2 & Tx)]]; [inversion Ro; subst; eapply sf_unset; eauto| |].
      - inversion Ro; subst. eapply sf_present; eauto; try discriminate. cbn [deref]. cbn [vdepth] in Ds. apply EL; try apply ro_refl; auto; lia.
      - destruct (is_nil v) eqn:Nv; [destruct v; try discriminate; inversion Ro; subst; eapply sf_unset; eauto|].
        pose proof (reorder_nil _ _ Ro) as Nv'. rewrite Nv in Nv'.
        assert (v <> VNil) as Nn by (intros ->; discriminate). assert (v' <> VNil) as Nn' by (intros ->; discriminate).
        eapply sf_present; eauto. replace (deref v) with v by (destruct v; try reflexivity; exfalso; revert Tx; apply wt_elem_notptr).
        replace (deref v') with v'; [now apply EL|]. destruct v'; try reflexivity. inversion Ro; subst. exfalso; revert Tx; apply wt_elem_notptr. }
    destruct lbl as [| | |pk|]; auto.
    + destruct (is_num k) eqn:N.
      * destruct (wt_elem_num sc k v N Tf) as (z & -> & R). inversion Ro; subst. eapply sf_number; eauto. reflexivity.
      * eapply sf_implicit; eauto.
    + eapply sf_list; eauto. pose proof (reorder_vlist _ _ Ro) as Rl.
      assert (forall x, In x (vlist v) -> wt_elem sc k x /\ (vdepth x < n)%nat) as Hl.
      { destruct Tf as [->|(l & -> & Tf)]; [intros ? []|]. intros x Hx. pose proof (depth_list x l Hx). split; [auto|lia]. }
      clear -Hl Rl EL. induction Rl as [|x y l l' Rx Rl IHl]; constructor.
      * destruct (Hl x (or_introl eq_refl)). auto.
      * apply IHl. intros. apply Hl. now right.
    + destruct Tf as [->|(g & k' & x & -> & Hg & Sg & Tg & Tx)]; [inversion Ro; subst; eapply sf_other; eauto; discriminate|].
      assert (exists y, v' = VOneof (f_num g) y /\ reorder x y) as (y & -> & Ry) by (inversion Ro; subst; eauto using ro_refl).
      destruct (Z.eq_dec (f_num g) (f_num f)) as [En|En].
      * assert (g = f) as -> by (eapply wf_num_inj; eauto). rewrite Ty in Tg. injection Tg as <-.
        eapply sf_member; eauto. cbn [vdepth] in Ds. apply EL; auto. lia.
      * eapply sf_other; eauto; intros z [= Q _]; congruence.
  - rewrite !andb_true_iff in WT. destruct WT as [[Kk _] Gv].
    destruct (reorder_vmap _ _ Ro) as (l1 & P1 & F1).
    assert (forall e, In e (vmap v) -> wt_elem sc kk (fst e) /\ wt_elem sc vk (snd e) /\ (vdepth (fst e) < n)%nat /\ (vdepth (snd e) < n)%nat) as Hl.
    { destruct Tf as [->|(l & -> & T1 & T2 & T3)]; [intros ? []|]. intros e He. pose proof (depth_map e l He). split; [auto|]. split; [auto|]. split; [|lia].
      assert (vdepth (fst e) = 0%nat) as ->; [|lia]. pose proof (T1 e He) as Te. inversion Te as [| | | |? ? Ek|? ? ? Ek]; try reflexivity; subst; destruct kk; discriminate. }
    eapply sf_map; [eassumption|exact P1|].
    assert (forall e, In e l1 -> In e (vmap v)) as Hin by (intros e He; eapply Permutation_in; [symmetry; exact P1|exact He]).
    clear -F1 Hl EL Hin. induction F1 as [|x y l l' [E1 E2] F1 IHl]; constructor.
    + destruct (Hl x (Hin x (or_introl eq_refl))) as (A1 & A2 & A3 & A4). split; apply EL; auto. rewrite E1. apply ro_refl.
    + apply IHl. intros. apply Hin. now right.
Qed.
End Reorder.
