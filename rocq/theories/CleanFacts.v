(** What any accepted input leaves behind: in every message decoded, required
    fields are set and groups unset. *)
From Coq Require Import ZArith List Bool Lia.
From Verif Require Import Base BaseFacts Schema Value Helpers Unmarshal WireSpec Typing RecordSpec MsgSpec ContentSpec
  OrderFacts MarshalFacts ViewFacts TargetFacts UmFacts LoopFacts SameFacts RoundTrip.
Import ListNotations.
Open Scope Z_scope.

Section Clean.
Variable sc : schema.
Hypothesis W : wf_schema sc = true.
(** Upstream decodes messages with their required fields set. *)
Hypothesis UI : forall m bs v, md_foreign (md_of sc m) = true -> up_dec (sc_up sc) m bs = Some v -> up_init (sc_up sc) m v = true.
Hypothesis UV : up_dec_ok sc.
Hypothesis NX : forall m, md_foreign (md_of sc m) = false -> md_ext (md_of sc m) = [].

(** [full]: the message itself has its required fields. *)
Inductive clean (full : bool) : nat -> val -> Prop :=
| cl_own m s u : md_foreign (md_of sc m) = false -> length s = md_nslots (md_of sc m) ->
    (forall f, In f (md_fields (md_of sc m)) -> full = true -> is_required f = true -> slot s (f_slot f) <> VNil) ->
    (forall f l g, In f (md_fields (md_of sc m)) -> f_ty f = TField l (KGroup g) -> slot s (f_slot f) = VNil) ->
    (forall f k m1 x, In f (md_fields (md_of sc m)) -> holds f (slot s (f_slot f)) k x -> sub_of k = Some m1 ->
       x = VNil \/ clean true m1 x) ->
    clean full m (VMsg s u [])
| cl_up m s u h : md_foreign (md_of sc m) = true -> up_init (sc_up sc) m (VMsg s u h) = true -> clean full m (VMsg s u h).

Lemma clean_weak b m v : clean b m v -> clean false m v.
Proof. intros []; [apply cl_own; auto; discriminate|now apply cl_up]. Qed.
Lemma clean_vmsg b m v : clean b m v -> exists s u h, v = VMsg s u h.
Proof. intros []; eauto. Qed.

Lemma clean_new m : md_foreign (md_of sc m) = false -> clean false m (new_msg (md_of sc m)).
Proof.
  intros F. apply cl_own; auto.
  - unfold zero_slots. now rewrite map_length, seq_length.
  - discriminate.
  - intros f l g Hf T. rewrite (slot_zero sc m f W Hf), T. pose proof (wf_ty sc m f W Hf) as WT. rewrite T in WT.
    destruct l; try reflexivity.
  - intros f k m1 x Hf H Sk. rewrite (slot_zero sc m f W Hf) in H. exfalso.
    pose proof (wf_ty sc m f W Hf) as WT. inversion H as [? ? ? ? ? T Hx E|? ? ? ? ? ? T Hx E|? ? ? ? T Hl Hx E|? ? ? T E]; subst;
      rewrite T in *; try discriminate. destruct Hl; subst; now destruct Hx.
Qed.

Definition at_slot (v : val) (i : nat) : val := match v with VMsg s _ _ => slot s i | _ => VNil end.
Definition grow (f : fdesc) (v v' : val) : Prop :=
  (forall i, at_slot v i <> VNil -> at_slot v' i <> VNil) /\ (is_required f = true -> at_slot v' (f_slot f) <> VNil).
Lemma grow_set m f s u h x u' h' : In f (md_fields (md_of sc m)) -> length s = md_nslots (md_of sc m) -> x <> VNil ->
  grow f (VMsg s u h) (VMsg (list_set s (f_slot f) x) u' h').
Proof.
  intros Hf L N. pose proof (wf_slot sc m f W Hf) as Ls. split.
  - intros i. cbn. destruct (Nat.eq_dec (f_slot f) i) as [<-|E]; [now rewrite slot_set_eq by lia|now rewrite slot_set_neq].
  - intros _. cbn. now rewrite slot_set_eq by lia.
Qed.

Section Step.
Variable rec : Z -> nat -> list Z -> val -> res val val.
Hypothesis Hrec : forall i m buf v v', md_foreign (md_of sc m) = false -> rec i m buf v = Ok v' -> clean false m v -> clean true m v'.
Hypothesis Hnil : forall i m buf v', rec i m buf VNil = Ok v' -> v' = VNil.
Notation env := (safe_env sc).

Lemma decodeMessage_clean i m buf v v' : decodeMessage sc rec i m buf v = Ok v' ->
  clean false m v \/ (v = new_msg (md_of sc m)) -> clean true m v'.
Proof.
  intros E C. unfold decodeMessage in E. destruct (md_foreign (md_of sc m)) eqn:F.
  - assert (exists x, up_dec (sc_up sc) m buf = Some x /\ v' = x) as (x & Ex & ->).
    { destruct v; try discriminate; destruct (up_dec (sc_up sc) m buf); try discriminate; injection E as <-; eauto. }
    pose proof (up_dec_wt sc UV m buf x F Ex) as [Wx _]. inversion Wx; subst. apply cl_up; eauto.
  - eapply Hrec; eauto. destruct C as [C| ->]; [exact C|now apply clean_new].
Qed.
Lemma decodeMessage_nil i m buf v' : decodeMessage sc rec i m buf VNil = Ok v' -> v' = VNil.
Proof. unfold decodeMessage. destruct (md_foreign (md_of sc m)); [discriminate|]. apply Hnil. Qed.

Variable m : nat.
Notation md := (md_of sc m).
Hypothesis F : md_foreign md = false.

Lemma set_clean s u f x : clean false m (VMsg s u []) -> In f (md_fields md) ->
  (forall l g, f_ty f <> TField l (KGroup g)) -> (is_oneof f = true -> exists y, x = VOneof (f_num f) y) ->
  (forall k m1 y, holds f x k y -> sub_of k = Some m1 -> y = VNil \/ clean true m1 y) ->
  clean false m (VMsg (list_set s (f_slot f) x) u []).
Proof.
  intros C Hf NG O H. inversion C as [? ? ? _ L _ G S|? ? ? ? F']; subst; [|congruence].
  pose proof (wf_slot sc m f W Hf) as Ls. apply cl_own; auto; [now rewrite list_set_length|discriminate| |].
  - intros g l gg Hg T. destruct (Nat.eq_dec (f_slot f) (f_slot g)) as [E|E]; [|rewrite slot_set_neq by assumption; eauto].
    exfalso. destruct (field_dec f g) as [->|Ne]; [now apply (NG l gg)|].
    destruct (wf_compat sc m f g W Hf Hg Ne) as [_ Cc]. destruct (Cc E) as [_ C2]. unfold is_oneof in C2. rewrite T in C2.
    pose proof (wf_ty sc m g W Hg) as WT. rewrite T in WT. cbn in WT. destruct l; try discriminate. rewrite andb_false_r in WT. discriminate.
  - intros g k m1 y Hg Hh Sk. destruct (Nat.eq_dec (f_slot f) (f_slot g)) as [E|E]; [|rewrite slot_set_neq in Hh by assumption; eauto].
    rewrite <- E, slot_set_eq in Hh by lia. destruct (field_dec f g) as [<-|Ne]; [eauto|].
    destruct (wf_compat sc m f g W Hf Hg Ne) as [Nn Cc]. destruct (Cc E) as [C1 C2]. destruct (O C1) as (y0 & ->).
    exfalso. inversion Hh as [? ? ? ? ? T Hx Ex|? ? ? ? ? ? T Hx Ex|? ? ? ? T Hl Hx Ex|? ? ? T Ex]; subst; try congruence.
    unfold is_oneof in C2. rewrite T in C2. destruct Hl; subst; discriminate.
Qed.

Ltac inv_bind E := match type of E with rbind ?r _ = Ok _ => destruct r eqn:?; cbn [rbind] in E; try discriminate end.

Lemma store_clean f lbl k x v v' : In f (md_fields md) -> f_ty f = TField lbl k -> sub_of k = None -> clean false m v ->
  store f lbl k x v = Some v' -> x <> VNil -> clean false m v' /\ grow f v v'.
Proof.
  intros Hf T Sk C E Nx. destruct (clean_vmsg _ _ _ C) as (s & u & h & ->). assert (h = []) as -> by (inversion C; subst; congruence).
  unfold store in E. cbn [set_slot get_slot] in E.
  assert (forall y, (is_oneof f = true -> exists z, y = VOneof (f_num f) z) -> clean false m (VMsg (list_set s (f_slot f) y) u [])) as SC.
  { intros y O. apply set_clean; auto.
    - intros l g. rewrite T. intros [= _ ->]. discriminate.
    - intros k' m1 z Hh Sk'. exfalso. inversion Hh as [? ? ? ? ? T' Hx Ex|? ? ? ? ? ? T' Hx Ex|? ? ? ? T' Hl Hx Ex|? ? ? T' Ex]; subst; rewrite T in T'; congruence. }
  assert (length s = md_nslots md) as L by (inversion C; subst; congruence).
  unfold is_oneof in SC. rewrite T in SC.
  destruct lbl; injection E as <-; (split; [apply SC; try discriminate; eauto|eapply grow_set; eauto; try discriminate; destruct k; (exact Nx || discriminate)]).
Qed.

Lemma message_clean f lbl mm data i v v' j : In f (md_fields md) -> f_ty f = TField lbl (KMessage mm) -> clean false m v ->
  message_item sc rec env md f lbl mm data i v = Ok (v', j) -> clean false m v' /\ grow f v v'.
Proof.
  intros Hf T C E. destruct (clean_vmsg _ _ _ C) as (s & u & h & ->). assert (h = []) as -> by (inversion C; subst; congruence).
  assert (forall k m1 x, holds f (slot s (f_slot f)) k x -> sub_of k = Some m1 -> x = VNil \/ clean true m1 x) as HH.
  { inversion C as [? ? ? _ L _ G S|? ? ? ? F']; subst; [|congruence]. intros. eapply S; eauto. }
  unfold message_item in E. inv_bind E. destruct a as [i1 post]. inv_bind E. cbn [ue_alloc safe_env] in E. cbv zeta in E.
  assert (forall b : bool, (if b then new_msg (md_of sc mm) else new_msg (md_of sc mm)) = new_msg (md_of sc mm)) as FR by now intros [].
  rewrite !FR in E.
  assert (forall y, (is_oneof f = true -> exists z, y = VOneof (f_num f) z) ->
    (forall k m1 z, holds f y k z -> sub_of k = Some m1 -> z = VNil \/ clean true m1 z) -> clean false m (VMsg (list_set s (f_slot f) y) u [])) as SC.
  { intros y O H. apply set_clean; auto. intros l g. rewrite T. discriminate. }
  unfold is_oneof in SC. rewrite T in SC.
  assert (forall tgt put r, nest (decodeMessage sc rec i1 mm a tgt) put = Ok r -> (tgt = VNil \/ clean true mm tgt \/ tgt = new_msg (md_of sc mm)) ->
      exists x, (x = VNil \/ clean true mm x) /\ put x = Some r /\ (tgt <> VNil -> clean true mm x)) as NEST.
  { intros tgt put r H Tt. destruct (decodeMessage sc rec i1 mm a tgt) as [x| | |] eqn:Ed; cbn [nest] in H; try discriminate;
      [|match type of H with context [put ?y] => destruct (put y); discriminate end]. destruct (put x) eqn:Px; [|discriminate]. injection H as ->. exists x.
    destruct Tt as [->|Tt]; [split; [left; eapply decodeMessage_nil; eauto|split; [assumption|now intros []]]|].
    assert (clean true mm x) as Cx by (eapply decodeMessage_clean; eauto; destruct Tt; [left; eapply clean_weak; eauto|now right]). auto. }
  match type of E with (do x <- ?r; Ok (x, ?z)) = _ => assert (r = Ok v') as E1 by (destruct r; cbn in E; congruence) end.
  clear E.
  assert (forall lb, f_ty f = TField lb (KMessage mm) -> lb = LOptional \/ lb = LRequired -> forall y, y = VNil \/ clean true mm y ->
     forall k m1 z, holds f y k z -> sub_of k = Some m1 -> z = VNil \/ clean true m1 z) as HS.
  { intros lb T' L y Hy k m1 z Hh Sk. inversion Hh as [? ? ? ? ? T2 Hx Ex|? ? ? ? ? ? T2 Hx Ex|? ? ? ? T2 Hl Hx Ex|? ? ? T2 Ex]; subst; rewrite T' in T2; try congruence.
    - injection T2 as -> <-. destruct L; discriminate.
    - injection T2 as -> <-. cbn in Sk. injection Sk as <-. exact Hy.
    - injection T2 as -> <-. destruct L; discriminate. }
  assert (length s = md_nslots md) as L by (inversion C; subst; congruence).
  assert (lbl = LOptional \/ lbl = LRequired -> forall r,
     nest (decodeMessage sc rec i1 mm a match slot s (f_slot f) with VNil => new_msg (md_of sc mm) | _ => slot s (f_slot f) end)
          (fun x' => set_slot (VMsg s u []) (f_slot f) x') = Ok r -> clean false m r /\ grow f (VMsg s u []) r) as SING.
  { intros Lb r Er. apply NEST in Er as (x & Hx & [= <-] & Cx).
    - split; [apply SC; [destruct Lb; subst; discriminate|]; eapply HS; eauto|]. eapply grow_set; eauto.
      intros ->. destruct (slot s (f_slot f)); (destruct (clean_vmsg _ _ _ (Cx ltac:(discriminate))) as (? & ? & ? & ?); discriminate).
    - destruct (is_nil (slot s (f_slot f))) eqn:Ns; [destruct (slot s (f_slot f)); try discriminate; auto|].
      assert (slot s (f_slot f) <> VNil) as Nn by (intros Q; rewrite Q in Ns; discriminate).
      destruct (HH (KMessage mm) mm (slot s (f_slot f))) as [Q|Q]; [eapply holds_set; eauto|reflexivity|contradiction|].
      destruct (slot s (f_slot f)); auto. }
  destruct lbl as [| | |p|].
  - pose proof (wf_ty sc m f W Hf) as WT. rewrite T in WT. cbn in WT. rewrite andb_false_r in WT. discriminate.
  - apply SING; auto.
  - apply SING; auto.
  - unfold list_grow in E1. replace (nth (f_slot f) [] []) with (@nil val) in E1 by (destruct (f_slot f); reflexivity).
    assert (nest (decodeMessage sc rec i1 mm a (new_msg (md_of sc mm))) (fun x' => Some (VMsg (list_set s (f_slot f) (VList (vlist (slot s (f_slot f)) ++ [x']))) u [])) = Ok v') as E2
      by (destruct (md_pool md); exact E1).
    apply NEST in E2 as (x & Hx & [= <-] & _); [|auto]. split; [|eapply grow_set; eauto; discriminate]. apply SC; [discriminate|].
    intros k m1 z Hh Sk. inversion Hh as [? ? ? ? ? T2 Hz Ex|? ? ? ? ? ? T2 Hz Ex|? ? ? ? T2 Hl Hz Ex|? ? ? T2 Ex]; subst; rewrite T in T2; try congruence.
    2:{ injection T2 as <- <-. destruct Hl; discriminate. }
    injection T2 as <- <-. cbn in Sk. injection Sk as <-. rewrite in_app_iff in Hz. destruct Hz as [Hz|[<-|[]]]; [|exact Hx].
    destruct (slot s (f_slot f)) eqn:Es; try contradiction. eapply HH; [eapply holds_list; eauto|reflexivity].
  - set (keep := match slot s (f_slot f) with VOneof n x => if n =? f_num f then Some x else None | _ => None end) in E1.
    assert (forall x, x = VNil \/ clean true mm x -> clean false m (VMsg (list_set s (f_slot f) (VOneof (f_num f) x)) u []) /\ grow f (VMsg s u []) (VMsg (list_set s (f_slot f) (VOneof (f_num f) x)) u [])) as SO.
    { intros x Hx. split; [|eapply grow_set; eauto; discriminate]. apply SC; [eauto|]. intros k m1 z Hh Sk. inversion Hh as [? ? ? ? ? T2 Hz Ex|? ? ? ? ? ? T2 Hz Ex|? ? ? ? T2 Hl Hz Ex|? ? ? T2 Ex]; subst; rewrite T in T2; try congruence.
      - injection T2 as <- <-. destruct Hl; discriminate.
      - injection T2 as <-. cbn in Sk. now injection Sk as <-. }
    destruct keep as [x|] eqn:Ek; unfold keep in Ek.
    + assert (slot s (f_slot f) = VOneof (f_num f) x) as Es.
      { destruct (slot s (f_slot f)); try discriminate. destruct (num =? f_num f) eqn:En; [|discriminate].
        injection Ek as ->. f_equal. lia. }
      apply NEST in E1 as (x' & Hx & [= <-] & _); [auto|].
      destruct (HH (KMessage mm) mm x); [rewrite Es; eapply holds_member; eauto|reflexivity|auto|auto].
    + destruct (decodeMessage sc rec i1 mm a (new_msg (md_of sc mm))) as [x| | |] eqn:Ed; try discriminate. cbn in E1. injection E1 as <-.
      apply SO. right. eapply decodeMessage_clean; eauto.
Qed.

Lemma group_never fuel : forall f g wire data st i v r, Z.land wire 7 = 3 -> group_loop sc rec fuel f g wire data st i v <> Ok r.
Proof.
  induction fuel as [|fuel IH]; intros f g wire data st i v r Hw E; cbn [group_loop] in E; [discriminate|].
  inv_bind E. destruct a as [w j]. cbv zeta in E. rewrite Hw in E. cbn [Z.eqb Pos.eqb] in E. inv_bind E. inv_bind E.
  destruct ((a0 <? 0) || _); [discriminate|]. now apply IH in E.
Qed.

Lemma fieldItem_clean f lbl k wire data i v v' j : In f (md_fields md) -> f_ty f = TField lbl k ->
  (is_group k = true -> Z.land wire 7 = 3) -> clean false m v ->
  fieldItem sc rec env md f lbl k wire data i v = Ok (v', j) -> clean false m v' /\ grow f v v'.
Proof.
  intros Hf T HG C E. unfold fieldItem in E.
  destruct k as [| | | | | | | | |mm|mm| | | | | | |]; cbn [classify] in E;
    try (apply (num_item_inv f lbl) in E; destruct E as (z & _ & E); eapply store_clean; eauto; discriminate).
  - inv_bind E. destruct a as [i1 post]. inv_bind E. inv_bind E. injection E as <- _.
    match goal with Q : orpanic (store _ _ _ _ _) = Ok _ |- _ => destruct (store _ _ _ _ _) eqn:Es; [|discriminate]; injection Q as <- end. eapply store_clean; eauto; discriminate.
  - exfalso. eapply group_never; eauto.
  - eapply message_clean; eauto.
  - inv_bind E. destruct a as [i1 post]. inv_bind E. inv_bind E. injection E as <- _.
    match goal with Q : orpanic (store _ _ _ _ _) = Ok _ |- _ => destruct (store _ _ _ _ _) eqn:Es; [|discriminate]; injection Q as <- end. eapply store_clean; eauto; discriminate.
Qed.

Lemma map_set_in l k x y z : In (y, z) (map_set l k x) -> z = x \/ In (y, z) l.
Proof.
  induction l as [|[k' v'] l IH]; cbn [map_set]; [intros [[= _ <-]|[]]; now left|].
  destruct (key_eqb k k').
  - intros [[= _ <-]|H]; [now left|]. right. now right.
  - intros [H|H]; [right; now left|]. destruct (IH H); [now left|]. right. now right.
Qed.

Definition value_ok (k : kind) (x : val) : Prop := forall m1, sub_of k = Some m1 -> x = VNil \/ clean true m1 x.
Lemma mapField_clean k cur data i x j : is_group k = false -> value_ok k cur -> mapField sc rec env k cur data i = Ok (x, j) -> value_ok k x.
Proof.
  intros G V E m1 Sk. destruct k; try discriminate. injection Sk as <-. unfold mapField in E. cbn [classify] in E.
  inv_bind E. destruct a as [i1 post]. inv_bind E. inv_bind E. injection E as <- _. right.
  match goal with Q : drop_state tt ?r = Ok _ |- _ => destruct r eqn:Ed; try discriminate Q; injection Q as -> end.
  eapply decodeMessage_clean; eauto.
Qed.
Lemma map_loop_clean fuel kk vk data post : is_group vk = false -> forall i key value key' value' j, value_ok vk value ->
  map_loop sc rec env fuel kk vk data i post key value = Ok (key', value', j) -> value_ok vk value'.
Proof.
  intros G. induction fuel as [|fuel IH]; intros i key value key' value' j V E; cbn [map_loop] in E; [discriminate|].
  destruct (i <? post); [|injection E as _ <- _; exact V]. cbv zeta in E. inv_bind E. destruct a as [wire i1].
  destruct (s32 (Z.shiftr wire 3) =? 1); [inv_bind E; eapply IH; eauto|].
  destruct (s32 (Z.shiftr wire 3) =? 2).
  - inv_bind E. destruct a as [x i2]. cbn [fst snd] in E. eapply IH; [|exact E]. eapply mapField_clean; eauto.
  - inv_bind E. inv_bind E. destruct (_ || _); [discriminate|]. destruct (post <? _); [discriminate|]. eapply IH; eauto.
Qed.
Lemma map_clean f kk vk data i v v' j : In f (md_fields md) -> f_ty f = TMap kk vk -> clean false m v ->
  map_item sc rec env f kk vk data i v = Ok (v', j) -> clean false m v' /\ grow f v v'.
Proof.
  intros Hf T C E. destruct (clean_vmsg _ _ _ C) as (s & u & h & ->). assert (h = []) as -> by (inversion C; subst; congruence).
  pose proof (wf_ty sc m f W Hf) as WT. rewrite T in WT. cbn in WT. rewrite !andb_true_iff in WT. destruct WT as [_ G]. apply negb_true_iff in G.
  unfold map_item in E. inv_bind E. destruct a as [i1 post]. cbn [get_slot set_slot orpanic rbind] in E.
  inv_bind E. destruct a as [[key value] j1]. injection E as <- _. match goal with Q : lift _ ?r = Ok _ |- _ => destruct r eqn:El; try discriminate Q; injection Q as -> end.
  assert (value_ok vk value) as V.
  { eapply map_loop_clean; [exact G| |exact El]. intros m1 Sk. left. destruct vk; try discriminate; reflexivity. }
  assert (length s = md_nslots md) as L by (inversion C; subst; congruence).
  assert (forall s2, list_set (list_set s (f_slot f) (VMap (vmap (slot s (f_slot f))))) (f_slot f) s2 = list_set s (f_slot f) s2) as LS.
  { intros s2. clear. generalize (VMap (vmap (slot s (f_slot f)))) as q. generalize (f_slot f) as n. induction s as [|a s IH]; intros [|n] q; cbn; try reflexivity. now rewrite IH. }
  rewrite LS. split; [|eapply grow_set; eauto; discriminate]. apply set_clean; auto.
  - intros l g. rewrite T. discriminate.
  - unfold is_oneof. rewrite T. discriminate.
  - intros k m1 z Hh Sk. inversion Hh as [? ? ? ? ? T2 Hz Ex|? ? ? ? ? ? T2 Hz Ex|? ? ? ? T2 Hl Hz Ex|? ? ? T2 Ex]; subst; rewrite T in T2; try congruence.
    injection T2 as <- <-. apply map_set_in in Hz as [->|Hz]; [now apply V|].
    inversion C as [? ? ? _ _ _ _ S|? ? ? ? F']; subst; [|congruence].
    eapply S; eauto. destruct (slot s (f_slot f)); try contradiction. eapply holds_map; eauto.
Qed.

Lemma packed_clean fuel f lbl k wire data post : In f (md_fields md) -> f_ty f = TField lbl k -> is_group k = false -> is_required f = false -> forall i v v' j,
  clean false m v -> packed_loop sc rec env fuel md f lbl k wire data i post v = Ok (v', j) -> clean false m v' /\ grow f v v'.
Proof.
  intros Hf T G R. induction fuel as [|fuel IH]; intros i v v' j C E; cbn [packed_loop] in E; [discriminate|].
  destruct (i <? post); [|injection E as <- _; split; [assumption|]; split; [auto|congruence]].
  inv_bind E. destruct a as [v1 i1]. cbn [fst snd] in E.
  match goal with Q : fieldItem _ _ _ _ _ _ _ _ _ _ _ = Ok _ |- _ => apply fieldItem_clean in Q as [C1 G1]; auto; [|congruence] end.
  destruct (IH _ _ _ _ C1 E) as [C2 G2]. split; [assumption|]. split; [|congruence].
  intros q Hq. now apply G2, G1.
Qed.

Lemma um_field_clean f wire data i v v' j : In f (md_fields md) -> clean false m v ->
  um_field sc rec env md f wire data i v = Ok (v', j) -> clean false m v' /\ grow f v v'.
Proof.
  intros Hf C E. unfold um_field in E. cbv zeta in E. destruct (f_ty f) as [lbl k|kk vk] eqn:T.
  - assert (Z.land wire 7 = ProtoWireType k -> is_group k = true -> Z.land wire 7 = 3) as HG by (intros Q; destruct k; try discriminate; auto).
    destruct (packable lbl k) eqn:Pk.
    + destruct (Z.land wire 7 =? ProtoWireType k) eqn:Ew; [eapply fieldItem_clean; eauto; apply HG; lia|].
      destruct (Z.land wire 7 =? 2); [|discriminate]. inv_bind E. destruct a as [i1 post].
      eapply packed_clean; [exact Hf|exact T| | |exact C|exact E].
      * pose proof (wf_ty sc m f W Hf) as WT. rewrite T in WT. destruct lbl; try discriminate. cbn in WT. rewrite !andb_true_iff in WT. destruct WT as [_ [_ WT]]. now apply negb_true_iff in WT.
      * unfold is_required. rewrite T. destruct lbl; try discriminate; reflexivity.
    + destruct (Z.land wire 7 =? ProtoWireType k) eqn:Ew; [eapply fieldItem_clean; eauto; apply HG; lia|discriminate].
  - destruct (Z.land wire 7 =? 2); [|discriminate]. eapply map_clean; eauto.
Qed.

Lemma um_unknown_clean num data i v v' j : clean false m v -> um_unknown sc m num data i v = Ok (v', j) ->
  clean false m v' /\ (forall i, at_slot v i <> VNil -> at_slot v' i <> VNil).
Proof.
  intros C E. unfold um_unknown in E. cbv zeta in E. inv_bind E. inv_bind E. destruct (_ || _); [discriminate|].
  destruct (_ <? _); [discriminate|]. inv_bind E. unfold in_ext in E. rewrite (NX m F) in E. cbn [existsb] in E.
  destruct (clean_vmsg _ _ _ C) as (s & u & h & ->). destruct (md_keep md); cbn [add_unknown orpanic rbind] in E; injection E as <- _; [|auto].
  split; [|auto]. inversion C; subst; [apply cl_own; auto|congruence].
Qed.

Definition required_seen (v : val) (has : list Z) : Prop :=
  forall f, In f (md_fields md) -> is_required f = true -> has_bit md has f = true -> at_slot v (f_slot f) <> VNil.
Lemma um_step_clean data i v has v' j has' : clean false m v -> length has = length (has_init md) -> required_seen v has ->
  um_step sc rec env m data i v has = Ok (v', j, has') -> clean false m v' /\ length has' = length (has_init md) /\ required_seen v' has'.
Proof.
  intros C L R E. unfold um_step in E. cbv zeta in E. inv_bind E. destruct a as [wire i1]. destruct (_ =? 4); [discriminate|].
  destruct (_ <=? 0); [discriminate|]. destruct (find_field _ _) as [f|] eqn:Ff.
  - apply find_field_some in Ff as [Hf _]. inv_bind E. destruct a as [v1 i2]. cbn [fst snd] in E. injection E as <- _ <-.
    match goal with Q : um_field _ _ _ _ _ _ _ _ _ = Ok _ |- _ => apply um_field_clean in Q as [C1 [G1 G2]]; auto end.
    split; [assumption|]. split; [now rewrite has_set_length|]. intros g Hg Rg B.
    destruct (is_required f) eqn:Rf.
    + rewrite has_set_bit in B by assumption. apply orb_true_iff in B as [B|B]; [|apply G1; auto].
      apply Z.eqb_eq in B. assert (f = g) as <- by (eapply wf_num_inj; eauto). auto.
    + unfold has_set in B. rewrite Rf in B. apply G1. auto.
  - inv_bind E. destruct a as [v1 i2]. cbn [fst snd] in E. injection E as <- _ <-.
    match goal with Q : um_unknown _ _ _ _ _ _ = Ok _ |- _ => apply um_unknown_clean in Q as [C1 G1]; auto end.
    split; [assumption|]. split; [assumption|]. intros g Hg Rg B. auto.
Qed.
Lemma um_loop_clean fuel data : forall i v has v' j has', clean false m v -> length has = length (has_init md) -> required_seen v has ->
  um_loop sc rec env fuel m data i v has = Ok (v', j, has') -> clean false m v' /\ required_seen v' has'.
Proof.
  induction fuel as [|fuel IH]; intros i v has v' j has' C L R E; cbn [um_loop] in E; [discriminate|].
  destruct (i <? zlen data); [|injection E as <- _ <-; auto]. inv_bind E. destruct a as [[v1 i1] has1].
  match goal with Q : um_step _ _ _ _ _ _ _ _ = Ok _ |- _ => apply um_step_clean in Q as (C1 & L1 & R1); auto end. eauto.
Qed.
Lemma um_body_clean data v v' : clean false m v -> um_body sc rec env m data v = Ok v' -> clean true m v'.
Proof.
  intros C E. unfold um_body in E. cbv zeta in E. inv_bind E. destruct a as [[v1 i1] has1].
  destruct (has_all md has1) eqn:HA; [|discriminate]. cbn [negb] in E. destruct (_ <? _); [discriminate|]. injection E as <-.
  match goal with Q : um_loop _ _ _ _ _ _ _ _ _ = Ok _ |- _ => apply um_loop_clean in Q as (C1 & R1); auto end.
  - rewrite has_all_iff in HA. inversion C1 as [? s u _ Ls _ G S|? ? ? ? F']; subst; [|congruence]. apply cl_own; auto.
    intros f Hf _ Rf. apply (R1 f Hf Rf). auto.
  - intros f _ _ B. rewrite has_init_bit in B. discriminate.
Qed.
End Step.


(** A nil receiver stays nil (most writes panic). *)
Section Nil.
Variable rec : Z -> nat -> list Z -> val -> res val val.
Notation env := (safe_env sc).
Ltac inv_bind E := match type of E with rbind ?r _ = Ok _ => destruct r eqn:?; cbn [rbind] in E; try discriminate end.
Ltac inv_all E := repeat (match type of E with
  | rbind ?r _ = Ok _ => destruct r eqn:?; cbn [rbind] in E; try discriminate
  | (let (_, _) := ?a in _) = Ok _ => destruct a; cbn [rbind] in E; try discriminate
  | (if ?c then _ else _) = Ok _ => destruct c; try discriminate end).
Lemma store_nil f lbl k x : store f lbl k x VNil = None.
Proof. destruct lbl; reflexivity. Qed.
Lemma group_nil fuel f g wire data st : forall i r, group_loop sc rec fuel f g wire data st i VNil <> Ok r.
Proof. induction fuel as [|fuel IH]; intros i r E; cbn [group_loop] in E; [discriminate|]. cbv zeta in E. cbn [get_slot orpanic] in E. inv_all E. now apply IH in E. Qed.
Lemma fieldItem_nil md f lbl k wire data i r : fieldItem sc rec env md f lbl k wire data i VNil <> Ok r.
Proof.
  intros E. unfold fieldItem in E. destruct (classify k); try (rewrite !store_nil in E);
    try (destruct r as [v' j]; apply (num_item_inv f lbl k) in E; destruct E as (z & _ & E); rewrite store_nil in E; discriminate);
    try (inv_all E; match goal with Q : orpanic (store _ _ _ _ VNil) = Ok _ |- _ => rewrite store_nil in Q; discriminate end).
  - unfold message_item in E. inv_all E.
  - now apply group_nil in E.
Qed.
Lemma um_msg_nil_step m data i has v' j has' : um_step sc rec env m data i VNil has = Ok (v', j, has') -> v' = VNil.
Proof.
  intros E. unfold um_step in E. cbv zeta in E. inv_bind E. destruct a as [wire i1]. destruct (_ =? 4); [discriminate|].
  destruct (_ <=? 0); [discriminate|]. destruct (find_field _ _) as [f|].
  - inv_bind E. destruct a as [v1 i2]. injection E as <- _ _. cbn [fst].
    match goal with Q : um_field _ _ _ _ _ _ _ _ _ = Ok _ |- _ => rename Q into E end. unfold um_field in E. cbv zeta in E.
    destruct (f_ty f) as [lbl k|kk vk].
    + destruct (packable lbl k); destruct (_ =? ProtoWireType k); try discriminate; try (now apply fieldItem_nil in E).
      destruct (_ =? 2); [|discriminate]. inv_bind E. destruct a as [i3 post].
      cbn [packed_loop] in E. destruct (i3 <? post); [|now injection E as <- _].
      inv_bind E. match goal with Q : fieldItem _ _ _ _ _ _ _ _ _ _ _ = Ok _ |- _ => now apply fieldItem_nil in Q end.
    + destruct (_ =? 2); [|discriminate]. unfold map_item in E. cbn [get_slot orpanic] in E. inv_all E.
  - inv_bind E. destruct a as [v1 i2]. injection E as <- _ _. cbn [fst].
    match goal with Q : um_unknown _ _ _ _ _ _ = Ok _ |- _ => rename Q into E end. unfold um_unknown in E. cbv zeta in E.
    cbn [add_unknown orpanic] in E. inv_all E. now injection E as <- _.
Qed.
Lemma um_body_nil m data v' : um_body sc rec env m data VNil = Ok v' -> v' = VNil.
Proof.
  unfold um_body. cbv zeta. generalize (has_init (md_of sc m)) as has. generalize 0 as i. generalize (S (length data)) as fuel.
  intros fuel i has E. inv_bind E. destruct a as [[v1 i1] has1]. destruct (negb _); [discriminate|]. destruct (_ <? _); [discriminate|]. injection E as <-.
  match goal with Q : um_loop _ _ _ _ _ _ _ _ _ = Ok _ |- _ => revert Q end. revert i has. induction fuel as [|fuel IH]; intros i has E; cbn [um_loop] in E; [discriminate|].
  destruct (i <? zlen data); [|now injection E as <- _ _]. inv_bind E. destruct a as [[v2 i2] has2].
  match goal with Q : um_step _ _ _ _ _ _ _ _ = Ok _ |- _ => apply um_msg_nil_step in Q as -> end. eauto.
Qed.
End Nil.

Lemma um_msg_clean n : forall m data v v', md_foreign (md_of sc m) = false -> um_msg sc n m data v = Ok v' ->
  clean false m v -> clean true m v'.
Proof.
  induction n as [|n IH]; intros m data v v' F E C; cbn [um_msg] in E; [discriminate|].
  refine (um_body_clean (fun _ => um_msg sc n) _ _ m F data v v' C E).
  - intros i m0 buf v0 v0' F0 E0 C0. exact (IH m0 buf v0 v0' F0 E0 C0).
  - intros i m0 buf v0 E0. destruct n; cbn [um_msg] in E0; [discriminate|]. eapply um_body_nil; eauto.
Qed.
Lemma UnmarshalVT_clean m data v' : md_foreign (md_of sc m) = false -> UnmarshalVT sc m data (new_msg (md_of sc m)) = Ok v' -> clean true m v'.
Proof. intros F E. eapply um_msg_clean; eauto. now apply clean_new. Qed.
End Clean.
