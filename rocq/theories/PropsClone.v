(** Property C34 and the parts of C22 about CloneVT and EqualVT.

    [CloneVT_from sc al m v]: CloneVT of [v], of type [m], when the message
    allocated for the clone of the sub-message at path [p] is [al p]; [CloneVT]:
    all of them are [new(T)].  [blank] (CloneSpec.v): with the content of a new
    message.  [up_clone_ok] (CloneSpec.v): what is assumed of proto.Clone. *)
From Coq Require Import ZArith List Bool Lia Permutation.
From Verif Require Import TargetFacts Base BaseFacts Schema Value Helpers Size Marshal Unmarshal Equal Clone WireSpec Typing RecordSpec MsgSpec DecodeSpec ContentSpec EqualSpec CloneSpec
  OrderFacts SimFacts MarshalFacts MarshalTop SameFacts EqualRel EqualFacts EqualSame LikeFacts CloneFacts Ex
  PropsMarshal PropsUnmarshal PropsEqual.
Import ListNotations.
Open Scope Z_scope.

Lemma ex_clone_ok : up_clone_ok ex_sc.
Proof. split; auto. Qed.
(** Allocators: new messages, and messages with stale capacity (empty, non-nil
    slices with hidden elements). *)
Lemma new_blank sc : wf_schema sc = true -> forall m, blank sc m (new_msg (md_of sc m)).
Proof. intros W m. split; [now apply target_new|]. apply new_self; auto; reflexivity. Qed.
Definition ex_stale : val := VMsg
  [VInt 0; VNil; VList []; VList []; VNil; VNil; VInt 0; VBytes []; VNil; VList []] [] [[]; []; []; [ex_inner]].
Lemma ex_stale_blank : blank ex_sc 0 ex_stale.
Proof.
  split; [now apply (check_ok ex_sc 5)|]. constructor; [|reflexivity]. intros f Hf. cbn in Hf.
  repeat (destruct Hf as [<-|Hf];
    [solve [eapply sf_number; reflexivity|eapply sf_implicit; try reflexivity; apply sv_text; [auto|reflexivity]
           |eapply sf_unset; [reflexivity|auto]|eapply sf_list; [reflexivity|constructor]|eapply sf_map; [reflexivity|apply Permutation_refl|constructor]
           |eapply sf_other; [reflexivity|discriminate|discriminate]]|]). destruct Hf.
Qed.
Definition ex_al (p : list step) (m : nat) : val := match m with 0%nat => ex_stale | _ => new_msg (md_of ex_sc m) end.
Lemma ex_al_blank p m : blank ex_sc m (ex_al p m).
Proof. destruct m; [apply ex_stale_blank|apply new_blank, ex_wf]. Qed.

(** * C34 *)
(** The clone is a message of the same type with the same content: every field with
    the same presence and value (floats bit for bit), every element of lists and
    maps, every sub-message, the same unknown fields.  Messages without helpers are
    cloned by proto.Clone. *)
Theorem C34_same_content : forall sc al m v,
  wf_schema sc = true -> up_clone_ok sc -> (forall p m, blank sc m (al p m)) ->
  md_foreign (md_of sc m) = false -> wt_msg sc m v ->
  wt_msg sc m (CloneVT_from sc al m v) /\
  same_msg sc same_bits same_bits (up_cloned sc) m v (CloneVT_from sc al m v).
Proof.
  intros sc al m v W UC AL F T. destruct (clone_ok sc al W UC AL (S (vdepth v)) [] m v ltac:(lia) T F) as [L Tc].
  split; [exact Tc|]. apply (like_same sc W (C sc) (up_cloned sc)); [|now left|exact L].
  intros m' a b _ _ R. now right.
Qed.
Print Assumptions C34_same_content.

Theorem C34_nil : forall sc al m, CloneVT_from sc al m VNil = VNil.
Proof. reflexivity. Qed.
Print Assumptions C34_nil.

(** The clone has the same size and encodes to the same bytes, or to an error if
    and only if the original does. *)
Theorem C34_same_bytes : forall sc al strict m v,
  wf_schema sc = true -> up_enc_ok sc -> up_clone_ok sc -> (forall p m, blank sc m (al p m)) ->
  md_foreign (md_of sc m) = false -> wt_msg sc m v ->
  SizeVT sc m (CloneVT_from sc al m v) = SizeVT sc m v /\
  (is_err (MarshalVT sc strict m v) <-> is_err (MarshalVT sc strict m (CloneVT_from sc al m v))) /\
  forall bs, MarshalVT sc strict m v = Ok bs <-> MarshalVT sc strict m (CloneVT_from sc al m v) = Ok bs.
Proof.
  intros sc al strict m v W U UC AL F T. destruct (clone_ok sc al W UC AL (S (vdepth v)) [] m v ltac:(lia) T F) as [L Tc].
  fold (CloneVT_from sc al m v) in L, Tc. set (c := CloneVT_from sc al m v) in *. clearbody c.
  assert (forall ord, (forall m, Permutation (ord m) (md_fields (md_of sc m))) ->
    Encoding sc ord m v = Encoding sc ord m c /\ Initialized sc m v = Initialized sc m c) as E.
  { intros ord OP. apply (like_enc sc ord OP (C sc)); auto.
    - intros m' a b F' [_ ->]. symmetry. now apply (uc_enc sc UC).
    - intros m' a b F' [_ ->]. symmetry. now apply (uc_init sc UC). }
  assert (v <> VNil /\ c <> VNil) as [Nv Nc] by (split; [inversion T|inversion Tc]; discriminate).
  assert (wt_ptrmsg sc m v) as T1 by now right. assert (wt_ptrmsg sc m c) as T2 by now right.
  destruct (E (order sc strict)) as [E1 E2]; [intros; apply order_perm|].
  pose proof (top_marshal sc W U strict m v T1 Nv) as M1. pose proof (top_marshal sc W U strict m c T2 Nc) as M2.
  rewrite <- E1, <- E2 in M2. split; [|split].
  - rewrite !(top_size sc W U strict) by assumption. now rewrite E1.
  - unfold outcome in *. destruct (Initialized sc m v); [rewrite M1, M2; reflexivity|].
    destruct M1 as [e1 ->]. destruct M2 as [e2 ->]. split; intros _; eexists; reflexivity.
  - intros bs. unfold outcome in *. destruct (Initialized sc m v); [rewrite M1, M2; reflexivity|].
    destruct M1 as [e1 ->]. destruct M2 as [e2 ->]. split; discriminate.
Qed.
Print Assumptions C34_same_bytes.

(** Messages without NaN are EqualVT to their clones. *)
Theorem C34_equal : forall sc al o m v,
  wf_schema sc = true -> up_clone_ok sc -> up_eq_ok sc -> (forall p m, blank sc m (al p m)) ->
  md_foreign (md_of sc m) = false -> wt_ptrmsg sc m v -> nan_free sc m v ->
  EqualVT sc o m v (CloneVT_from sc al m v) = true.
Proof.
  intros sc al o m v W UC U AL F T N. destruct T as [->|T].
  { apply C32_decides; auto; now left. }
  destruct (C34_same_content sc al m v W UC AL F T) as [Tc S]. apply C32_decides; auto; try (now right). right.
  assert (equal_content sc m v v) as R by now apply self_equal.
  assert (same_msg sc go_equal go_equal (fun m x y => up_eq (sc_up sc) m x y = true) m v (CloneVT_from sc al m v)) as Q; [|exact Q].
  refine (trans_msg sc go_equal go_equal same_bits same_bits go_equal go_equal
    (fun m x y => up_eq (sc_up sc) m x y = true) (up_cloned sc) (fun m x y => up_eq (sc_up sc) m x y = true) _ _ _ m v v R _ S).
  - intros k x y z G ->. exact G.
  - intros k x y z G ->. exact G.
  - intros m' x y z G [->|[F' ->]]; [exact G|]. apply (up_eq_trans sc U m' x y); [exact G|].
    apply (uc_eq sc UC); [exact F'|]. eapply (up_eq_trans sc U); [|exact G]. now apply (up_eq_sym sc U).
Qed.
Print Assumptions C34_equal.

Example C34_nonvacuous :
  wf_schema ex_sc = true /\ up_enc_ok ex_sc /\ up_clone_ok ex_sc /\ up_eq_ok ex_sc /\ (forall p m, blank ex_sc m (ex_al p m)) /\
  wt_msg ex_sc 0 ex_v /\ nan_free ex_sc 0 ex_v /\
  EqualVT ex_sc (fun _ => false) 0 ex_v (CloneVT_from ex_sc ex_al 0 ex_v) = true /\
  CloneVT ex_sc 0 ex_v = ex_v /\ CloneVT_from ex_sc ex_al 0 ex_v <> ex_v /\ CloneVT ex_sc 0 ex_bad = ex_bad.
Proof.
  split; [apply ex_wf|]. split; [apply ex_up_ok|]. split; [apply ex_clone_ok|]. split; [apply ex_eq_ok|]. split; [apply ex_al_blank|].
  split; [apply ex_wt|]. split; [apply ex_free|]. split; [vm_compute; reflexivity|]. split; [vm_compute; reflexivity|].
  split; [vm_compute; discriminate|vm_compute; reflexivity].
Qed.

(** * C22 *)
Theorem C22_cloned : forall sc al m v,
  wf_schema sc = true -> up_clone_ok sc -> (forall p m, blank sc m (al p m)) ->
  md_foreign (md_of sc m) = false -> wt_msg sc m v -> md_keep (md_of sc m) = true ->
  unknown_of (CloneVT_from sc al m v) = unknown_of v.
Proof.
  intros sc al m v W UC AL F T K. destruct (C34_same_content sc al m v W UC AL F T) as [_ S].
  inversion S as [? ? ? ? ? ? ? _ Eu]; subst. now rewrite Eu.
Qed.
Print Assumptions C22_cloned.

Theorem C22_compared : forall sc o m a b,
  wf_schema sc = true -> up_eq_ok sc -> md_foreign (md_of sc m) = false -> wt_msg sc m a -> wt_msg sc m b ->
  md_keep (md_of sc m) = true -> unknown_of a <> unknown_of b -> EqualVT sc o m a b = false.
Proof.
  intros sc o m a b W U F Ta Tb K N. destruct (EqualVT sc o m a b) eqn:E; [|reflexivity]. exfalso.
  apply (proj2 (C32_any sc o m a b W U F Ta Tb)) in E. inversion E as [? ? ? ? ? ? ? _ Eu]; subst. apply N. cbn. auto.
Qed.
Print Assumptions C22_compared.
Example C22_compared_nonvacuous : md_keep (md_of ex_sc 0) = true /\
  EqualVT ex_sc (fun _ => false) 0 (VMsg (zero_slots ex_m0) [160; 6; 1] []) (VMsg (zero_slots ex_m0) [160; 6; 2] []) = false /\
  unknown_of (CloneVT_from ex_sc ex_al 0 ex_v) = [160; 6; 1].
Proof. split; [reflexivity|]. split; vm_compute; reflexivity. Qed.
