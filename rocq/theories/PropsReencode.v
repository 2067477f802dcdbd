(** Property C45: marshalling what was unmarshalled. *)
From Coq Require Import ZArith List Bool Lia Permutation.
From Verif Require Import Base BaseFacts Schema Value Helpers Size Marshal Unmarshal WireSpec Typing RecordSpec MsgSpec
  VarintFacts SkipFacts OrderFacts NumFacts ViewFacts TargetFacts UmFacts LoopFacts DecodeSpec DecodeFacts MergeFacts
  SimFacts MarshalFacts MarshalTop ReorderFacts ContentSpec SameFacts RoundTrip RoundTripTop WithinFacts CleanFacts Ex
  PropsMarshal PropsUnmarshal PropsRecords PropsRoundTrip.
Import ListNotations.
Open Scope Z_scope.

(** Upstream decodes only messages with their required fields set (what
    proto.Unmarshal checks). *)
Definition up_dec_init (sc : schema) : Prop := forall m bs v, md_foreign (md_of sc m) = true ->
  up_dec (sc_up sc) m bs = Some v -> up_init (sc_up sc) m v = true.
(** No message type with helpers declares extensions. *)
Definition no_extensions (sc : schema) : Prop := forall m, md_foreign (md_of sc m) = false -> md_ext (md_of sc m) = [].

(** What is asked of a decoded message: no message with required fields is nil (a map
    entry without value leaves nil behind), unknown bytes are records of undeclared
    fields numbered below 2^29, and messages without helpers survive upstream's own
    encoding and decoding. *)
Definition settled (sc : schema) (P : nat -> val -> val -> Prop) (m : nat) (v : val) : Prop :=
  forall m' x, within sc m v m' x ->
    if md_foreign (md_of sc m') then ok_here sc P m' x /\ (x = VNil -> up_init (sc_up sc) m' VNil = true)
    else (x = VNil -> no_required sc m') /\
         (forall s u h, x = VMsg s u h -> md_keep (md_of sc m') = true -> unknown_records sc m' u).

Scheme miss_mut := Minimality for MissingRequired Sort Prop with misssub_mut := Minimality for MissingSub Sort Prop.

Lemma clean_within sc m v m' x : clean sc true m v -> within sc m v m' x -> x = VNil \/ clean sc true m' x.
Proof.
  intros C Hw. induction Hw as [|m s u h f k m1 x m' y F Hf Hh Sk Hw IH]; [now right|].
  inversion C as [? ? ? _ _ _ _ S|? ? ? ? F']; subst; [|congruence].
  destruct (S f k m1 x Hf Hh Sk) as [->|Cx]; [|now apply IH]. inversion Hw; subst; now left.
Qed.

Lemma clean_complete sc : forall m v, MissingRequired sc m v -> md_foreign (md_of sc m) = false -> clean sc true m v ->
  (forall m', within sc m v m' VNil -> md_foreign (md_of sc m') = true -> up_init (sc_up sc) m' VNil = true) -> False.
Proof.
  apply (miss_mut sc (fun m v => md_foreign (md_of sc m) = false -> clean sc true m v ->
     (forall m', within sc m v m' VNil -> md_foreign (md_of sc m') = true -> up_init (sc_up sc) m' VNil = true) -> False)
    (fun m v => v = VNil \/ clean sc true m v ->
     (forall m', within sc m v m' VNil -> md_foreign (md_of sc m') = true -> up_init (sc_up sc) m' VNil = true) -> False)).
  - intros m s u h f Hf R N F C _. inversion C as [? ? ? _ _ Q _ _|? ? ? ? F']; subst; [|congruence]. now apply (Q f Hf eq_refl R).
  - intros m s u h f k m' x Hf Hp Sk _ IH F C U. inversion C as [? ? ? _ _ _ _ S|? ? ? ? F']; subst; [|congruence].
    assert (holds f (slot s (f_slot f)) k x) as Hh by (inversion Hp; subst; [eapply holds_list|eapply holds_map|eapply holds_set]; eauto).
    apply IH; [eauto|]. intros m2 Hw F2. apply U; [|assumption]. eapply in_sub; eauto.
  - intros m s u h f k m' x Hf T E Nx Sk _ IH F C U. inversion C as [? ? ? _ _ _ _ S|? ? ? ? F']; subst; [|congruence].
    assert (holds f (slot s (f_slot f)) k x) as Hh by (rewrite E; now apply holds_member).
    apply IH; [eauto|]. intros m2 Hw F2. apply U; [|assumption]. eapply in_sub; eauto.
  - intros m x F M IH [->|C] U; [inversion M|]. now apply IH.
  - intros m x F I [->|C] U.
    + rewrite (U m) in I; [discriminate|apply in_self|exact F].
    + inversion C; subst; congruence.
Qed.

(** * C45 *)
Theorem C45_reencode : forall sc P strict m bs v,
  wf_schema sc = true -> up_enc_ok sc -> up_dec_ok sc -> up_dec_init sc -> no_extensions sc ->
  md_foreign (md_of sc m) = false -> bytes_ok bs = true -> small bs ->
  accepts sc m bs (new_msg (md_of sc m)) v -> settled sc P m v ->
  exists bs', MarshalVT sc strict m v = Ok (Some bs') /\
    (small bs' -> exists v', accepts sc m bs' (new_msg (md_of sc m)) v' /\ same_msg sc same_bits zero_normal P m v v').
Proof.
  intros sc P strict m bs v W UE UD UI NX F B S A SE.
  pose proof (UnmarshalVT_clean sc W UI UD NX m bs v F A) as C.
  assert (wt_msg sc m v) as T.
  { destruct (UnmarshalVT_total sc W UD m bs (new_msg (md_of sc m)) B S (target_new sc W m)) as [(x & Ex & [Tx _])|(e & x & Ex & _)];
      unfold accepts in A; rewrite A in Ex; [injection Ex as ->; exact Tx|discriminate]. }
  assert (wt_ptrmsg sc m v) as T' by now right.
  assert (~ MissingRequired sc m v) as NM.
  { intros M. apply (clean_complete sc m v M F C). intros m' Hw F'. specialize (SE _ _ Hw). rewrite F' in SE. now apply SE. }
  pose proof (Initialized_missing sc m v W T') as IM.
  pose proof (top_marshal sc W UE strict m v T' ltac:(intros ->; inversion T)) as TM.
  destruct (Initialized sc m v) eqn:In; [|exfalso; apply NM; now apply IM].
  eexists. split; [exact TM|]. intros S'.
  eapply marshal_unmarshal; eauto. intros m' x Hw. pose proof (SE m' x Hw) as Q. unfold ok_here.
  destruct (md_foreign (md_of sc m')) eqn:F'; [unfold ok_here in Q; rewrite F' in Q; apply Q|].
  destruct Q as [Q1 Q2]. split; [exact Q1|]. intros s u h ->. split; [eapply Q2; eauto|].
  destruct (clean_within sc m v m' _ C Hw) as [|Cx]; [discriminate|].
  inversion Cx as [? ? ? _ _ _ G _|? ? ? ? F2]; subst; [exact G|congruence].
Qed.
Print Assumptions C45_reencode.

Lemma ex_dec_init : up_dec_init ex_sc.
Proof.
  intros m bs v F _. assert (m = 2%nat) as ->.
  { destruct m as [|[|[|m]]]; try discriminate F; [reflexivity|]. unfold md_of in F. cbn in F. destruct m; discriminate. }
  destruct v; try reflexivity. destruct slots as [|[] ?]; reflexivity.
Qed.
Lemma ex_no_ext : no_extensions ex_sc.
Proof.
  intros m F. destruct m as [|[|[|m]]]; try reflexivity. unfold md_of. cbn. destruct m; reflexivity.
Qed.
Example C45_nonvacuous : up_dec_init ex_sc /\ no_extensions ex_sc /\
  accepts ex_sc 0 ex_conf (new_msg (md_of ex_sc 0)) ex_conf_v /\ settled ex_sc (fun _ => eq) 0 ex_conf_v.
Proof.
  split; [apply ex_dec_init|]. split; [apply ex_no_ext|]. split; [vm_compute; reflexivity|].
  assert (decodable ex_sc (fun _ => eq) 0 ex_conf_v) as D
    by (apply (decodable_b_ok ex_sc ex_foreign ex_unknown _ (fun m x _ => ex_foreign_ok m x) ex_unknown_ok 5); reflexivity).
  intros m x Hw. pose proof (D m x Hw) as Q. destruct (md_foreign (md_of ex_sc m)) eqn:F; unfold ok_here in Q; rewrite F in Q.
  - unfold ok_here. rewrite F. split; [exact Q|]. intros _.
    assert (m = 2%nat) as ->; [|reflexivity].
    destruct m as [|[|[|m]]]; try discriminate F; [reflexivity|]. unfold md_of in F. cbn in F. destruct m; discriminate.
  - destruct Q as [Q1 Q2]. split; [exact Q1|]. intros s u h E. now apply (Q2 s u h E).
Qed.

(** Without [settled]: the entry {"a": (no value)} of a map to messages with a
    required field is accepted and marshalled, but the result is rejected. *)
Theorem C45_entry_without_value_refuted : exists sc m bs v bs',
  wf_schema sc = true /\ up_enc_ok sc /\ up_dec_ok sc /\ up_dec_init sc /\ no_extensions sc /\
  md_foreign (md_of sc m) = false /\ bytes_ok bs = true /\ small bs /\
  accepts sc m bs (new_msg (md_of sc m)) v /\ MarshalVT sc true m v = Ok (Some bs') /\ small bs' /\
  is_error (UnmarshalVT sc m bs' (new_msg (md_of sc m))).
Proof.
  exists ex_sc, 0%nat, [42; 3; 10; 1; 97]. do 2 eexists.
  split; [apply ex_wf|]. split; [apply ex_up_ok|]. split; [apply ex_dec_ok|]. split; [apply ex_dec_init|]. split; [apply ex_no_ext|].
  split; [reflexivity|]. split; [reflexivity|]. split; [reflexivity|]. split; [vm_compute; reflexivity|].
  split; [vm_compute; reflexivity|]. split; [vm_compute; reflexivity|]. do 2 eexists. vm_compute. reflexivity.
Qed.
Print Assumptions C45_entry_without_value_refuted.
