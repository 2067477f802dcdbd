(** Decoding on memory against decoding on trees from the same tree: the relation of C54. *)
From Coq Require Import ZArith List Bool Lia.
From Verif Require Import Heap HeapSpec HeapRead HeapDec HeapOwnSpec HeapOwnFacts HeapSim.
From Verif Require Import Base BaseFacts Schema Value Helpers Unmarshal WireSpec Typing RecordSpec MsgSpec TargetFacts UmFacts.
Import ListNotations.
Open Scope Z_scope.

Definition same_tree (m : nat) (a b : val) : Prop := a = b.
Definition same_left (m : nat) (a b : val) : Prop := left_empty b a.
Lemma slot_kept ss i : (i < length ss)%nat -> list_set ss i (slot ss i) = ss.
Proof. apply list_set_same. Qed.
Lemma rel_same sc : wf_schema sc = true -> rel_ok sc false (fun _ => True) same_tree same_left.
Proof.
  intros W.
  assert (forall m f ss u h ss' h', at_field sc (fun _ => True) same_tree m f ss u h ss' h' -> In f (md_fields (md_of sc m)) /\ ss = ss' /\ h = h' /\ target sc m (VMsg ss' u h') /\ (f_slot f < length ss')%nat) as At.
  { intros m f ss u h ss' h' (_ & Hf & E & T). injection E as -> ->. repeat (split; [auto|]). pose proof T as T'. apply target_iff in T' as (L & _). rewrite L. now apply wf_slot. }
  assert (forall m f ss u h, target sc m (VMsg ss u h) -> In f (md_fields (md_of sc m)) -> wt_field sc (md_of sc m) f (slot ss (f_slot f))) as Wf.
  { intros m f ss u h T Hf. apply target_iff in T as (_ & _ & _ & F). now destruct (F f Hf). }
  constructor; unfold same_tree, same_left in *.
  - (* r_loc *) intros; exact I.
  - reflexivity.
  - reflexivity.
  - intros m a b ->. constructor.
  - intros m a b [Wt _] ->. exact Wt.
  - reflexivity.
  - reflexivity.
  - (* r_shape *) intros m a b _ T ->. destruct (target_vmsg _ _ _ T) as (ss & u & h & ->). exists ss, u, h, ss, h. auto.
  - discriminate.
  - (* r_unk *) intros m ss u h ss' h' bs _ E. congruence.
  - (* r_store *) intros m f ss u h ss' h' lbl k x A Ty _ _. destruct (At _ _ _ _ _ _ _ A) as (_ & -> & -> & _). destruct (store _ _ _ _ _); auto.
  - (* r_list *) intros m f ss u h ss' h' p k A Ty. destruct (At _ _ _ _ _ _ _ A) as (Hf & -> & -> & T & _). split; [|reflexivity].
    pose proof (Wf _ _ _ _ _ T Hf) as X. apply wt_field_inv in X. rewrite Ty in X. destruct X as [->|(l & -> & _)]; eauto.
  - (* r_bytes *) intros m f ss u h ss' h' lbl A Ty N1 N2. destruct (At _ _ _ _ _ _ _ A) as (Hf & -> & -> & T & _).
    pose proof (Wf _ _ _ _ _ T Hf) as X. apply wt_field_inv in X. rewrite Ty in X. destruct lbl; try congruence.
    + inversion X; subst; eauto; discriminate.
    + destruct X as [->|[(x & _ & [N|N] & _)|(_ & _ & X)]]; [now left|discriminate|discriminate|]. inversion X; subst; eauto; discriminate.
    + destruct X as [->|[(x & _ & [N|N] & _)|(_ & _ & X)]]; [now left|discriminate|discriminate|]. inversion X; subst; eauto; discriminate.
  - (* r_empty *) intros m f ss u h ss' h' p k A Ty X. now destruct (At _ _ _ _ _ _ _ A) as (Hf & -> & -> & T & _).
  - (* e_empty *) intros m f ss u h ss' h' p k A Ty X. destruct (At _ _ _ _ _ _ _ A) as (Hf & -> & -> & T & Li).
    rewrite <- (slot_kept ss' (f_slot f) Li) at 1. rewrite X. apply em_slot, em_list.
  - (* r_map *) intros m f ss u h ss' h' kk vk A Ty. destruct (At _ _ _ _ _ _ _ A) as (Hf & -> & -> & T & _).
    pose proof (Wf _ _ _ _ _ T Hf) as X. apply wt_field_inv in X. rewrite Ty in X. destruct X as [->|(l & -> & _)]; eauto.
  - (* r_map0 *) intros m f ss u h ss' h' kk vk A Ty. now destruct (At _ _ _ _ _ _ _ A) as (Hf & -> & -> & T & _).
  - (* r_mapset *) intros m f ss u h ss' h' kk vk key x y A Ty _ _ RV. destruct (At _ _ _ _ _ _ _ A) as (Hf & -> & -> & T & _).
    assert (x = y) as -> by (destruct RV as [[_ E]|(? & _ & E)]; exact E). reflexivity.
  - (* r_sub *) intros m f ss u h ss' h' lbl m' A Ty Hl. destruct (At _ _ _ _ _ _ _ A) as (Hf & -> & -> & T & _). now split.
  - (* r_set *) intros m f ss u h ss' h' lbl m' x y A Ty Hl ->. now destruct (At _ _ _ _ _ _ _ A) as (Hf & -> & -> & T & _).
  - (* e_set *) intros m f ss u h ss' h' lbl m' x y A Ty Hl X. destruct (At _ _ _ _ _ _ _ A) as (Hf & -> & -> & T & _). now apply em_slot.
  - (* r_grow *) intros m f ss u h ss' h' p m' tx hx ty hy A Ty E1 E2. destruct (At _ _ _ _ _ _ _ A) as (Hf & -> & -> & T & _).
    rewrite E1 in E2. injection E2 as -> ->. split; [reflexivity|]. split; [now intros x y _ ->|]. intros x y _ X. now apply em_slot, em_last.
  - (* r_oneof *) intros m f ss u h ss' h' m' A Ty. destruct (At _ _ _ _ _ _ _ A) as (Hf & -> & -> & T & _).
    pose proof (Wf _ _ _ _ _ T Hf) as X. apply wt_field_inv in X. rewrite Ty in X. destruct X as [->|(g & k & x & -> & _)]; [now left|right]. exists (f_num g), x, x. auto.
  - (* r_member *) intros m f ss u h ss' h' m' x y A Ty ->. now destruct (At _ _ _ _ _ _ _ A) as (Hf & -> & -> & T & _).
  - (* e_member *) intros m f ss u h ss' h' m' x y A Ty X. destruct (At _ _ _ _ _ _ _ A) as (Hf & -> & -> & T & _). now apply em_slot, em_oneof.
Qed.
