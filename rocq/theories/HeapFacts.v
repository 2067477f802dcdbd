(** CloneVT writes to new objects and to those it takes from the pools only. *)
From Coq Require Import ZArith List Bool Lia.
From Verif Require Import Base BaseFacts Schema Value Helpers Unmarshal Typing Heap HeapSpec TargetFacts.
Import ListNotations.
Open Scope Z_scope.

Lemma nth_error_set_eq {A} (l : list A) a x : (a < length l)%nat -> nth_error (list_set l a x) a = Some x.
Proof. revert a. induction l as [|y l IH]; intros [|a] H; cbn in *; try lia; auto. apply IH. lia. Qed.
Lemma nth_error_set_neq {A} (l : list A) a b x : a <> b -> nth_error (list_set l a x) b = nth_error l b.
Proof. revert a b. induction l as [|y l IH]; intros [|a] [|b] H; cbn in *; try lia; auto. Qed.
Lemma in_list_set {A} (l : list A) a x y : In y (list_set l a x) -> y = x \/ In y l.
Proof. revert a. induction l as [|z l IH]; intros [|a] H; cbn in *; auto; destruct H as [->|H]; auto. destruct (IH a H); auto. Qed.
Lemma nth_error_lt {A} (l : list A) a x : nth_error l a = Some x -> (a < length l)%nat.
Proof. intros H. apply nth_error_Some. congruence. Qed.

(** * Safety *)
Section Safe.
Variable sc : schema.
Variable uclone : nat -> hval -> list obj -> option (hval * list obj).
Hypothesis UF : up_fresh uclone.
Variable s0 : mem.
Definition ours (a : nat) : Prop := (length (heap s0) <= a)%nat \/ reach (heap s0) (pooled s0) a.
Definition writable (a : nat) : Prop := (length (heap s0) <= a)%nat \/ pooled s0 a.
Record inv (s : mem) : Prop := {
  inv_len : (length (heap s0) <= length (heap s))%nat;
  inv_old : forall a, (a < length (heap s0))%nat -> ~ pooled s0 a -> nth_error (heap s) a = nth_error (heap s0) a;
  inv_closed : forall a o b, ours a -> nth_error (heap s) a = Some o -> points o b -> ours b;
  inv_free : forall a, pooled s a -> pooled s0 a }.
Definition own (v : hval) : Prop := forall a, In a (addrs v) -> ours a.
Definition safe {A} (x : M A) (Q : A -> Prop) : Prop := forall s a s', inv s -> x s = Some (a, s') -> inv s' /\ Q a.

Lemma inv0 : inv s0.
Proof. split; auto. intros a o b [L|R] E P; [apply nth_error_lt in E; lia|]. right. eapply reach_next; eauto. Qed.
Lemma writable_ours a : writable a -> ours a.
Proof. intros [L|P]; [now left|]. right. now constructor. Qed.

Lemma safe_ret {A} (a : A) (Q : A -> Prop) : Q a -> safe (ret a) Q.
Proof. intros H s a' s' I E. injection E as <- <-. auto. Qed.
Lemma safe_fail {A} (Q : A -> Prop) : safe fail Q.
Proof. intros s a s' I E. discriminate. Qed.
Lemma safe_bind {A B} (x : M A) (k : A -> M B) Q R : safe x Q -> (forall a, Q a -> safe (k a) R) -> safe (bind x k) R.
Proof. intros X K s b s' I E. unfold bind in E. destruct (x s) as [[a s1]|] eqn:E1; [|discriminate]. destruct (X s a s1 I E1) as [I1 Qa]. eapply K; eauto. Qed.
Lemma safe_load a : safe (load a) (fun o => ours a -> forall b, points o b -> ours b).
Proof. intros s o s' I E. unfold load in E. destruct (nth_error (heap s) a) as [o'|] eqn:N; [|discriminate]. injection E as <- <-. split; auto. intros H b Hb. eapply inv_closed; eauto. Qed.
Lemma safe_store a o : writable a -> (forall b, points o b -> ours b) -> safe (store a o) (fun _ => True).
Proof.
  intros W P s u s' I E. unfold store in E. destruct (Nat.ltb_spec a (length (heap s))) as [L|L]; [|discriminate]. injection E as <- <-. split; auto. destruct I as [I1 I2 I3 I4].
  split; cbn [heap free].
  - now rewrite list_set_length.
  - intros b Lb Nb. rewrite nth_error_set_neq; auto. intros ->. destruct W as [W|W]; [lia|contradiction].
  - intros b o' c Hb Eb Hc. destruct (Nat.eq_dec a b) as [->|N].
    + rewrite nth_error_set_eq in Eb by auto. injection Eb as <-. auto.
    + rewrite nth_error_set_neq in Eb by auto. eapply I3; eauto.
  - exact I4.
Qed.
Lemma inv_more s new fr ps : inv s -> (forall a, (exists m, In (m, a) fr) -> pooled s a) -> (forall o a, In o new -> points o a -> ours a) -> inv (mkMem (heap s ++ new) fr ps).
Proof.
  intros [I1 I2 I3 I4] F P. split; cbn [heap free].
  - rewrite app_length. lia.
  - intros a L N. rewrite nth_error_app1 by lia. auto.
  - intros a o b Ha E Hb. destruct (Nat.lt_ge_cases a (length (heap s))) as [L|L].
    + rewrite nth_error_app1 in E by auto. eauto.
    + rewrite nth_error_app2 in E by auto. apply nth_error_In in E. eauto.
  - intros a Ha. apply I4, F. exact Ha.
Qed.
Lemma safe_alloc o : (forall b, points o b -> ours b) -> safe (alloc o) writable.
Proof.
  intros P s a s' I E. unfold alloc in E. injection E as <- <-. split; [|left; apply I]. apply inv_more; auto. intros o' b [<-|[]] Hb. auto.
Qed.
Lemma own_none v : addrs v = [] -> own v.
Proof. intros E a H. rewrite E in H. destruct H. Qed.
Lemma own_nth i l : (forall x, In x l -> own x) -> own (nth i l HNil).
Proof. intros H. destruct (nth_in_or_default i l HNil) as [I| ->]; [auto|now apply own_none]. Qed.
Lemma points_own o : (forall b, points o b -> ours b) <-> forall x, In x (vars o) -> own x.
Proof. split; [intros H x Hx b Hb; apply H; exists x; auto|]. intros H b (x & Hx & Hb). apply (H x Hx b Hb). Qed.
Lemma safe_get_slot a i : safe (get_slot a i) (fun x => ours a -> own x).
Proof.
  eapply safe_bind; [apply safe_load|]. intros [| | | | |l u] H; try apply safe_fail. apply safe_ret. intros O. specialize (H O). rewrite points_own in H. apply own_nth. intros x Hx. apply H. now right.
Qed.
Lemma safe_get_unk a : safe (get_unk a) (fun x => True).
Proof. eapply safe_bind; [apply safe_load|]. intros [| | | | |l u] H; try apply safe_fail. now apply safe_ret. Qed.
Lemma safe_set_slot a i x : writable a -> own x -> safe (set_slot a i x) (fun _ => True).
Proof.
  intros W O. eapply safe_bind; [apply safe_load|]. intros [| | | | |l u] H; try apply safe_fail. apply safe_store; auto. specialize (H (writable_ours a W)). rewrite points_own in *. cbn [vars In] in *.
  intros y [<-|Hy]; auto. apply in_list_set in Hy. destruct Hy as [->|Hy]; auto.
Qed.
Lemma safe_set_unk a x : writable a -> own x -> safe (set_unk a x) (fun _ => True).
Proof.
  intros W O. eapply safe_bind; [apply safe_load|]. intros [| | | | |l u] H; try apply safe_fail. apply safe_store; auto. specialize (H (writable_ours a W)). rewrite points_own in *. cbn [vars In] in *.
  intros y [<-|Hy]; auto.
Qed.
Lemma safe_set_elem a i x : writable a -> own x -> safe (set_elem a i x) (fun _ => True).
Proof.
  intros W O. eapply safe_bind; [apply safe_load|]. intros [| |l| | |] H; try apply safe_fail. apply safe_store; auto. specialize (H (writable_ours a W)). rewrite points_own in *. cbn [vars] in *.
  intros y Hy. apply in_list_set in Hy. destruct Hy as [->|Hy]; auto.
Qed.
Lemma safe_set_key a k x : writable a -> own k -> own x -> safe (set_key a k x) (fun _ => True).
Proof.
  intros W Ok O. eapply safe_bind; [apply safe_load|]. intros [| | |l| |] H; try apply safe_fail. apply safe_store; auto. specialize (H (writable_ours a W)). rewrite points_own in *. cbn [vars] in *.
  intros y Hy. rewrite !map_app in Hy. cbn [map fst snd] in Hy. rewrite !in_app_iff in *. cbn [In] in Hy. assert (In y (map fst l ++ map snd l) \/ y = k \/ y = x) as [Q|[->| ->]] by (rewrite in_app_iff; intuition congruence); auto.
Qed.
Lemma safe_set_wrap a x : writable a -> own x -> safe (set_wrap a x) (fun _ => True).
Proof.
  intros W O. eapply safe_bind; [apply safe_load|]. intros [| | | |n y|] H; try apply safe_fail. apply safe_store; auto. rewrite points_own. cbn [vars In]. intros z [<-|[]]; auto.
Qed.
Lemma safe_any {A} (x : M A) : (forall s a s', x s = Some (a, s') -> s' = s) -> safe x (fun _ => True).
Proof. intros H s a s' I E. apply H in E. now subst. Qed.
Lemma load_same a s o s' : load a s = Some (o, s') -> s' = s.
Proof. unfold load. destruct (nth_error _ _); [|discriminate]. intros E. now injection E. Qed.
Lemma safe_bytes v : safe (bytes_of v) (fun _ => True).
Proof.
  destruct v; try apply safe_fail; [now apply safe_ret|]. eapply safe_bind; [apply safe_load|]. intros [] H; try apply safe_fail. destruct (_ <=? _)%nat; [now apply safe_ret|apply safe_fail].
Qed.
Lemma safe_elems v : safe (elems_of v) (fun _ => True).
Proof.
  destruct v; try apply safe_fail. eapply safe_bind; [apply safe_load|]. intros [] H; try apply safe_fail. destruct (_ <=? _)%nat; [now apply safe_ret|apply safe_fail].
Qed.
Lemma safe_entries v : safe (entries_of v) (fun _ => True).
Proof. destruct v; try apply safe_fail. eapply safe_bind; [apply safe_load|]. intros [] H; try apply safe_fail. now apply safe_ret. Qed.
Lemma safe_scalar v : safe (scalar v) own.
Proof. destruct v; try apply safe_fail; apply safe_ret; now apply own_none. Qed.
Lemma no_points o : vars o = [] -> forall b, points o b -> ours b.
Proof. intros E b (x & Hx & _). rewrite E in Hx. destruct Hx. Qed.
Lemma nil_points l : (forall x, In x l -> x = HNil) -> forall o, vars o = l -> forall b, points o b -> ours b.
Proof. intros H o E b (x & Hx & Hb). rewrite E in Hx. apply H in Hx. subst. destruct Hb. Qed.
Lemma new_obj_points md b : points (new_obj md) b -> ours b.
Proof.
  intros (x & Hx & Hb). exfalso. unfold new_obj in Hx. cbn [vars In] in Hx. destruct Hx as [<-|Hx]; [destruct Hb|]. apply in_map_iff in Hx. destruct Hx as (i & <- & _). unfold hzero_slot in Hb.
  destruct (find _ _) as [f|]; [|destruct Hb]. unfold hzero_of in Hb. destruct (f_ty f) as [[] k|]; try destruct Hb. destruct (classify k); destruct Hb.
Qed.
Lemma safe_Alloc m : safe (Alloc sc m) writable.
Proof.
  unfold Alloc. assert (safe (alloc (new_obj (md_of sc m))) writable) as N by (apply safe_alloc; apply new_obj_points). destruct (md_pool (md_of sc m)); auto.
  intros s a s' I E. destruct (picks s) as [|i ps]; [now apply N in E|].
  assert (inv (mkMem (heap s) (free s) ps)) as I' by (destruct I; split; auto).
  destruct (nth_error (free s) i) as [[m' a']|] eqn:F; [|now apply N in E]. destruct (m' =? m)%nat; [|now apply N in E]. injection E as <- <-. split.
  - rewrite <- (app_nil_r (heap s)). apply inv_more; auto; [|intros ? ? []]. intros b [mm Hb]. exists mm. rewrite <- (firstn_skipn i (free s)). rewrite in_app_iff in *. destruct Hb as [Hb|Hb]; auto. right.
    clear -Hb. revert i Hb. induction (free s) as [|e l IH]; intros [|i] Hb; cbn in *; auto.
  - right. eapply inv_free; eauto. exists m'. eapply nth_error_In; eauto.
Qed.
Lemma safe_clone_bytes v : safe (hclone_bytes v) own.
Proof.
  eapply safe_bind; [apply safe_bytes|]. intros b _. eapply safe_bind; [apply safe_alloc; now apply no_points|]. intros a W. apply safe_ret. intros b' [<-|[]]. now apply writable_ours.
Qed.
Lemma safe_clone_up m v : safe (hclone_up uclone m v) own.
Proof.
  intros s r s' I E. unfold hclone_up in E. destruct (uclone m v (heap s)) as [[r' new]|] eqn:U; [|discriminate]. injection E as <- <-. destruct (UF _ _ _ _ _ U) as [U1 U2]. pose proof (inv_len s I) as L.
  split; [apply inv_more; auto; intros o a Ho Ha; left; specialize (U2 o a Ho Ha); lia|]. intros a Ha. left. specialize (U1 a Ha). lia.
Qed.
Section Rec.
Variable rec : nat -> hval -> M hval.
Hypothesis R : forall m v, safe (rec m v) own.
Lemma safe_singular k v : safe (hclone_singular sc uclone rec k v) own.
Proof. unfold hclone_singular. destruct (classify k); try apply safe_scalar; [apply safe_clone_bytes| |]; destruct (md_foreign _); auto; apply safe_clone_up. Qed.
Lemma safe_clone_elems k a : writable a -> forall l i, safe (hclone_elems sc uclone rec k a i l) (fun _ => True).
Proof.
  intros W. induction l as [|v l IH]; intros i; cbn [hclone_elems]; [now apply safe_ret|]. eapply safe_bind; [apply safe_singular|]. intros x Ox. eapply safe_bind; [now apply safe_set_elem|]. intros _ _. apply IH.
Qed.
Lemma safe_clone_entries vk a : writable a -> forall l, safe (hclone_entries sc uclone rec vk a l) (fun _ => True).
Proof.
  intros W. induction l as [|[k v] l IH]; cbn [hclone_entries]; [now apply safe_ret|]. eapply safe_bind; [apply safe_scalar|]. intros k' Ok. eapply safe_bind; [apply safe_singular|]. intros x Ox.
  eapply safe_bind; [now apply safe_set_key|]. intros _ _. apply IH.
Qed.
Lemma own_ptr a v : writable a -> addrs v = [a] -> own v.
Proof. intros W E b Hb. rewrite E in Hb. destruct Hb as [<-|[]]. now apply writable_ours. Qed.
Lemma safe_field f rhs cur : own cur -> safe (hclone_field sc uclone rec f rhs cur) own.
Proof.
  intros O. unfold hclone_field.
  assert (safe (let! l := entries_of rhs in let! a := alloc (OMap []) in let! _ := hclone_entries sc uclone rec (match f_ty f with TMap _ vk => vk | _ => KBool end) a l in ret (HMap a)) own) as MP.
  { eapply safe_bind; [apply safe_entries|]. intros l _. eapply safe_bind; [apply safe_alloc; now apply no_points|]. intros a W. eapply safe_bind; [now apply safe_clone_entries|]. intros _ _. apply safe_ret. now apply (own_ptr a). }
  assert (forall k, safe (let! l := elems_of rhs in let! a := alloc (OArr (repeat HNil (length l))) in let! _ := hclone_elems sc uclone rec k a 0 l in ret (HSlice a 0 (length l) (length l))) own) as LP.
  { intros k. eapply safe_bind; [apply safe_elems|]. intros l _. eapply safe_bind; [apply safe_alloc|].
    - eapply nil_points; [|reflexivity]. intros x Hx. now apply repeat_spec in Hx.
    - intros a W. eapply safe_bind; [now apply safe_clone_elems|]. intros _ _. apply safe_ret. now apply (own_ptr a). }
  assert (forall a, safe (let! o := load a in match o with OCell v => let! x := scalar v in let! a' := alloc (OCell x) in ret (HPtr a') | _ => fail end) own) as CP.
  { intros a. eapply safe_bind; [apply safe_load|]. intros [] _; try apply safe_fail. eapply safe_bind; [apply safe_scalar|]. intros x Ox. eapply safe_bind; [apply safe_alloc|].
    - rewrite points_own. cbn [vars In]. intros y [<-|[]]; auto.
    - intros a' W. apply safe_ret. now apply (own_ptr a'). }
  pose proof (safe_clone_bytes rhs) as BP. pose proof (fun k => safe_singular k rhs) as SP.
  destruct (f_ty f) as [[] k|kk vk].
  - destruct (classify k); auto; try apply safe_scalar. destruct rhs; auto. now apply safe_ret.
  - destruct (classify k); try (destruct rhs; auto; try apply safe_fail; now apply safe_ret); destruct (md_foreign _); auto; destruct rhs; auto; now apply safe_ret.
  - destruct (classify k); try (destruct rhs; auto; try apply safe_fail; now apply safe_ret); destruct (md_foreign _); auto; destruct rhs; auto; now apply safe_ret.
  - destruct rhs; auto; now apply safe_ret.
  - destruct (classify k); try (destruct rhs; auto; try apply safe_fail; now apply safe_ret); destruct (md_foreign _); auto; destruct rhs; auto; now apply safe_ret.
  - destruct rhs; auto; now apply safe_ret.
Qed.
Lemma safe_member k x : safe (hclone_member sc uclone rec k x) own.
Proof.
  unfold hclone_member. assert (safe (ret HNil) own) as N by (apply safe_ret; now apply own_none). pose proof (safe_clone_bytes x) as BP. pose proof (safe_singular k x) as SP.
  destruct (classify k); try apply safe_scalar; [destruct x; auto| |]; destruct (md_foreign _); auto; destruct x; auto.
Qed.
Lemma safe_oneof md rhs cur : own cur -> safe (hclone_oneof sc uclone rec md rhs cur) own.
Proof.
  intros O. unfold hclone_oneof. destruct rhs; try apply safe_fail; [now apply safe_ret|]. eapply safe_bind; [apply safe_load|]. intros [] _; try apply safe_fail. destruct (find_field _ _) as [f|]; [|apply safe_fail].
  destruct (f_ty f); [|apply safe_fail]. eapply safe_bind; [apply safe_alloc; eapply nil_points; [|reflexivity]; cbn; intuition congruence|]. intros a' W. eapply safe_bind; [apply safe_member|]. intros y Oy.
  eapply safe_bind; [now apply safe_set_wrap|]. intros _ _. apply safe_ret. now apply (own_ptr a').
Qed.
Lemma safe_members a r : writable r -> forall fs, safe (hclone_members sc uclone rec a r fs) (fun _ => True).
Proof.
  intros W. induction fs as [|f fs IH]; cbn [hclone_members]; [now apply safe_ret|]. eapply safe_bind; [apply safe_get_slot|]. intros rhs _. eapply safe_bind; [apply safe_get_slot|]. intros cur Oc.
  eapply safe_bind; [apply safe_field; apply Oc; now apply writable_ours|]. intros x Ox. eapply safe_bind; [now apply safe_set_slot|]. intros _ _. apply IH.
Qed.
Lemma safe_oneofs md a r : writable r -> forall l, safe (hclone_oneofs sc uclone rec md a r l) (fun _ => True).
Proof.
  intros W. induction l as [|i l IH]; cbn [hclone_oneofs]; [now apply safe_ret|]. eapply safe_bind; [apply safe_get_slot|]. intros rhs _. eapply safe_bind; [apply safe_get_slot|]. intros cur Oc.
  eapply safe_bind; [apply safe_oneof; apply Oc; now apply writable_ours|]. intros x Ox. eapply safe_bind; [now apply safe_set_slot|]. intros _ _. apply IH.
Qed.
Lemma safe_unk md a r : writable r -> safe (hclone_unk md a r) (fun _ => True).
Proof.
  intros W. unfold hclone_unk. destruct (md_keep md); [|now apply safe_ret]. eapply safe_bind; [apply safe_get_unk|]. intros u _. eapply safe_bind; [apply safe_bytes|]. intros b _. destruct (0 <? zlen b); [|now apply safe_ret].
  eapply safe_bind; [apply safe_alloc; now apply no_points|]. intros n Wn. apply safe_set_unk; auto. now apply (own_ptr n).
Qed.
Lemma safe_body m v : safe (hclone_body sc uclone rec m v) own.
Proof.
  unfold hclone_body. destruct v; try apply safe_fail; [apply safe_ret; now apply own_none|]. eapply safe_bind; [apply safe_Alloc|]. intros r W. eapply safe_bind; [now apply safe_members|]. intros _ _.
  eapply safe_bind; [now apply safe_oneofs|]. intros _ _. eapply safe_bind; [now apply safe_unk|]. intros _ _. apply safe_ret. now apply (own_ptr r).
Qed.
End Rec.
Lemma safe_msg n : forall m v, safe (hclone_msg sc uclone n m v) own.
Proof. induction n as [|n IH]; intros m v; cbn [hclone_msg]; [apply safe_fail|]. now apply safe_body. Qed.
End Safe.
