(** Map order and encoding length. *)
From Coq Require Import ZArith List Bool Lia Permutation.
From Verif Require Import Base BaseFacts Schema Value WireSpec Typing MsgSpec OrderFacts SimFacts MarshalTop.
Import ListNotations.
Open Scope Z_scope.

Lemma reorder_vint v v' : reorder v v' -> vint v = vint v'.
Proof. destruct 1; reflexivity. Qed.
Lemma reorder_vbytes v v' : reorder v v' -> vbytes v = vbytes v'.
Proof. destruct 1; reflexivity. Qed.
Lemma reorder_nil v v' : reorder v v' -> is_nil v = is_nil v'.
Proof. destruct 1; reflexivity. Qed.
Lemma reorder_slot s s' i : Forall2 reorder s s' -> reorder (slot s i) (slot s' i).
Proof.
  intros H. revert i. induction H as [|x y s s' Hx Hs IH]; intros i; unfold slot.
  - destruct i; apply ro_refl.
  - destruct i; [exact Hx|exact (IH i)].
Qed.

Lemma Forall2_refl {A} (R : A -> A -> Prop) l : (forall x, R x x) -> Forall2 R l l.
Proof. induction l; constructor; auto. Qed.

Lemma reorder_vlist v v' : reorder v v' -> Forall2 reorder (vlist v) (vlist v').
Proof. destruct 1; cbn; auto; try constructor. apply Forall2_refl. apply ro_refl. Qed.

Definition entry_ro (a b : val * val) : Prop := fst a = fst b /\ reorder (snd a) (snd b).
Lemma reorder_vmap v v' : reorder v v' ->
  exists l1, Permutation (vmap v) l1 /\ Forall2 entry_ro l1 (vmap v').
Proof.
  destruct 1; cbn; eauto using Forall2_nil.
  exists (vmap v). split; [reflexivity|]. apply Forall2_refl. intros [a b]. split; [reflexivity|apply ro_refl].
Qed.

Lemma zlen_concat_Forall2 {A} (R : A -> A -> Prop) (e : A -> list Z) l l' : Forall2 R l l' ->
  (forall x y, R x y -> zlen (e x) = zlen (e y)) ->
  zlen (concat (map e l)) = zlen (concat (map e l')).
Proof.
  intros H E. induction H as [|x y l l' Hx Hl IH]; [reflexivity|].
  cbn [map concat]. rewrite !zlen_app, IH, (E x y Hx). reflexivity.
Qed.

Lemma zlen_ld a b : zlen a = zlen b -> zlen (ld a) = zlen (ld b).
Proof. intros E. unfold ld. rewrite !zlen_app, E. reflexivity. Qed.

Section Step.
Variable sc : schema.
Hypothesis U : up_reorder_ok sc.
Variable ord : nat -> list fdesc.
Variable re : nat -> val -> list Z.
Variable rr : nat -> val -> bool.
Hypothesis He : forall m v v', reorder v v' -> zlen (re m v) = zlen (re m v').
Hypothesis Hr : forall m v v', reorder v v' -> rr m v = rr m v'.

Lemma sub_len m v v' : reorder v v' -> zlen (enc_sub sc re m v) = zlen (enc_sub sc re m v').
Proof. intros H. unfold enc_sub. destruct (md_foreign _) eqn:F; auto. now apply up_reorder_len. Qed.

Lemma value_len k v v' : reorder v v' -> zlen (enc_value sc re k v) = zlen (enc_value sc re k v').
Proof.
  intros H. unfold enc_value. rewrite <- (reorder_vint _ _ H), <- (reorder_vbytes _ _ H).
  destruct k; auto using zlen_ld, sub_len.
Qed.
Lemma tagged_len num k v v' : reorder v v' ->
  zlen (enc_tagged sc re num k v) = zlen (enc_tagged sc re num k v').
Proof.
  intros H. unfold enc_tagged. destruct k; rewrite !zlen_app; f_equal; auto using value_len.
  f_equal. now apply sub_len.
Qed.
Lemma entry_len num kk vk a b : entry_ro a b ->
  zlen (enc_entry sc re num kk vk a) = zlen (enc_entry sc re num kk vk b).
Proof.
  intros [E H]. unfold enc_entry. rewrite !zlen_app. f_equal. apply zlen_ld.
  rewrite !zlen_app, E. do 3 f_equal. now apply value_len.
Qed.

Lemma field_len f v v' : reorder v v' -> zlen (enc_field sc re f v) = zlen (enc_field sc re f v').
Proof.
  intros H. unfold enc_field.
  assert (forall k, zlen match v with VNil => [] | VPtr x => enc_tagged sc re (f_num f) k x
                    | _ => enc_tagged sc re (f_num f) k v end
          = zlen match v' with VNil => [] | VPtr x => enc_tagged sc re (f_num f) k x
                    | _ => enc_tagged sc re (f_num f) k v' end) as P.
  { intros k. pose proof (tagged_len (f_num f) k v v' H) as T. destruct H; try exact T. reflexivity. }
  destruct (f_ty f) as [[| | |[]|] k|kk vk].
  - unfold default_value. rewrite <- (reorder_vint _ _ H), <- (reorder_vbytes _ _ H), <- (reorder_nil _ _ H).
    destruct (match k with KString | KBytes => _ | KGroup _ | KMessage _ => _ | _ => _ end); auto using tagged_len.
  - apply P.
  - apply P.
  - pose proof (reorder_vlist _ _ H) as L. inversion L as [|x y l l' Hx Hl E1 E2]; [reflexivity|].
    rewrite !zlen_app. f_equal. apply zlen_ld. rewrite E1, E2.
    eapply zlen_concat_Forall2; [apply reorder_vlist, H|]. apply value_len.
  - eapply zlen_concat_Forall2; [apply reorder_vlist, H|]. apply tagged_len.
  - destruct H; try reflexivity. destruct (n =? f_num f); [|reflexivity]. now apply tagged_len.
  - destruct (reorder_vmap _ _ H) as (l1 & P1 & P2). rewrite !zlen_concat_rev.
    rewrite (perm_zlen_concat _ _ _ P1). eapply zlen_concat_Forall2; [exact P2|]. apply entry_len.
Qed.

Lemma body_len m v v' : reorder v v' -> zlen (enc_body sc ord re m v) = zlen (enc_body sc ord re m v').
Proof.
  intros H. destruct H; try reflexivity. cbn [enc_body]. rewrite !zlen_app. f_equal.
  induction (ord m) as [|f l IH]; [reflexivity|]. cbn [map concat]. rewrite !zlen_app. f_equal; [|assumption].
  apply field_len. now apply reorder_slot.
Qed.

Lemma value_req k v v' : reorder v v' -> req_value sc rr k v = req_value sc rr k v'.
Proof.
  intros H. unfold req_value. destruct k; auto; destruct (md_foreign _) eqn:F; auto; now apply up_reorder_init.
Qed.
Lemma forallb_Forall2 {A} (R : A -> A -> Prop) (p : A -> bool) l l' : Forall2 R l l' ->
  (forall x y, R x y -> p x = p y) -> forallb p l = forallb p l'.
Proof. intros H E. induction H as [|x y l l' Hx Hl IH]; [reflexivity|]. cbn. now rewrite IH, (E x y Hx). Qed.

Lemma field_req f v v' : reorder v v' -> req_field sc rr f v = req_field sc rr f v'.
Proof.
  intros H. unfold req_field. pose proof (fun k => value_req k v v' H) as T.
  destruct (f_ty f) as [[| | |p|] k|kk vk].
  - now rewrite (reorder_nil _ _ H), T.
  - specialize (T k). destruct H; try exact T. reflexivity.
  - specialize (T k). destruct H; try exact T. reflexivity.
  - eapply forallb_Forall2; [apply reorder_vlist, H|]. apply value_req.
  - destruct H; try reflexivity. now rewrite (reorder_nil _ _ H), (value_req k _ _ H).
  - destruct (reorder_vmap _ _ H) as (l1 & P1 & P2). rewrite (perm_forallb _ _ _ P1).
    eapply forallb_Forall2; [exact P2|]. intros a b [_ E]. now apply value_req.
Qed.
Lemma body_req m v v' : reorder v v' -> req_body sc rr m v = req_body sc rr m v'.
Proof.
  intros H. destruct H; try reflexivity. cbn [req_body]. apply forallb_ext_in. intros f _.
  apply field_req. now apply reorder_slot.
Qed.
End Step.

Lemma reorder_enc_len sc ord : up_reorder_ok sc -> forall n m v v', reorder v v' ->
  zlen (enc_msg sc ord n m v) = zlen (enc_msg sc ord n m v').
Proof. intros U. induction n as [|n IH]; intros m v v' H; [reflexivity|]. now apply body_len. Qed.
Lemma reorder_req sc : up_reorder_ok sc -> forall n m v v', reorder v v' ->
  req_msg sc n m v = req_msg sc n m v'.
Proof. intros U. induction n as [|n IH]; intros m v v' H; [reflexivity|]. now apply body_req. Qed.

Lemma fold_max_perm {A} (d : A -> nat) l l' : Permutation l l' ->
  fold_right (fun x n => Nat.max (d x) n) 0%nat l = fold_right (fun x n => Nat.max (d x) n) 0%nat l'.
Proof. induction 1; cbn; lia. Qed.
Lemma fold_max_Forall2 {A} (d : A -> nat) (R : A -> A -> Prop) l l' : Forall2 R l l' ->
  (forall x y, In x l -> R x y -> d x = d y) ->
  fold_right (fun x n => Nat.max (d x) n) 0%nat l = fold_right (fun x n => Nat.max (d x) n) 0%nat l'.
Proof.
  induction 1 as [|x y l l' Hx Hl IH]; intros E; [reflexivity|]. cbn. rewrite IH, (E x y).
  - reflexivity.
  - now left.
  - assumption.
  - intros. apply E; auto. now right.
Qed.

Lemma reorder_depth n : forall v v', (vdepth v < n)%nat -> reorder v v' -> vdepth v = vdepth v'.
Proof.
  induction n as [|n IH]; intros v v' D H; [lia|]. destruct H as [v|l l' H|l l1 l' P H|k x y H|s s' u h H].
  - reflexivity.
  - cbn [vdepth]. f_equal. eapply fold_max_Forall2; [exact H|]. intros x y Hx R. apply IH; auto.
    pose proof (vdepth_list l x Hx). lia.
  - cbn [vdepth]. f_equal. rewrite (fold_max_perm (fun p => vdepth (snd p)) _ _ P).
    apply (fold_max_Forall2 (fun p => vdepth (snd p)) _ _ _ H). intros [a x] [b y] Hx [_ R]. cbn [snd] in *.
    apply IH; auto. pose proof (vdepth_map l a x). apply Permutation_sym in P.
    specialize (H0 (Permutation_in _ P Hx)). lia.
  - cbn [vdepth] in *. f_equal. apply IH; [lia|assumption].
  - cbn [vdepth]. f_equal. eapply fold_max_Forall2; [exact H|]. intros x y Hx R. apply IH; auto.
    apply In_nth with (d := VNil) in Hx as (i & _ & Hi). pose proof (vdepth_slot s u h i) as E.
    unfold slot in E. rewrite Hi in E. lia.
Qed.

Lemma reorder_Encoding sc ord m v v' : up_reorder_ok sc -> reorder v v' ->
  zlen (Encoding sc ord m v) = zlen (Encoding sc ord m v').
Proof.
  intros U H. unfold Encoding. rewrite <- (reorder_depth (S (vdepth v)) v v') by auto. now apply reorder_enc_len.
Qed.
Lemma reorder_Initialized sc m v v' : up_reorder_ok sc -> reorder v v' ->
  Initialized sc m v = Initialized sc m v'.
Proof.
  intros U H. unfold Initialized. rewrite <- (reorder_depth (S (vdepth v)) v v') by auto. now apply reorder_req.
Qed.
