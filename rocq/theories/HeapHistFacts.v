(** Running a program on memory with pools and on trees without: what stays related. *)
From Coq Require Import ZArith List Bool Lia.
From Verif Require Import PoolSpec.
From Verif Require Import Heap HeapSpec HeapRead HeapDec HeapOwnSpec HeapOwnFacts HeapSim HeapSimRun HeapReset HeapNil HeapCloneSpec HeapCloneSim HeapCloneTree HeapHist.
From Verif Require Import Base BaseFacts Schema Value Helpers Unmarshal Clone Pool WireSpec Typing RecordSpec MsgSpec DecodeSpec ContentSpec CloneSpec
  TargetFacts UmFacts SameFacts EqualRel RunRel RunFacts PoolFacts PoolRun PoolTotal WithinFacts.
Import ListNotations.
Open Scope Z_scope.

(** * Lists *)
Lemma f2_nth {A B} (R : A -> B -> Prop) l l' : Forall2 R l l' -> forall i, match nth_error l i, nth_error l' i with Some x, Some y => R x y | None, None => True | _, _ => False end.
Proof. induction 1 as [|x y l l' H F IH]; intros [|i]; cbn; auto. apply (IH i). Qed.
Lemma f2_change {A B} (R R' : A -> B -> Prop) l l' i x y : Forall2 R l l' -> nth_error l i = Some x -> R' x y ->
  (forall j a b, j <> i -> nth_error l j = Some a -> nth_error l' j = Some b -> R a b -> R' a b) -> Forall2 R' l (list_set l' i y).
Proof.
  intros F. revert i. induction F as [|a b l l' H F IH]; intros [|i] E Rxy K; cbn in E |- *; try discriminate.
  - injection E as ->. constructor; [exact Rxy|]. clear IH. assert (forall j a b, nth_error l j = Some a -> nth_error l' j = Some b -> R a b -> R' a b) as K' by (intros j c d; apply (K (S j)); discriminate).
    clear K. induction F as [|c d l l' H' F IH]; constructor; [now apply (K' 0%nat)|]. apply IH. intros j e f. apply (K' (S j)).
  - constructor; [apply (K 0%nat a b); auto|]. apply IH; auto. intros j c d Nj. apply (K (S j)). congruence.
Qed.
Lemma f2_mono {A B} (R R' : A -> B -> Prop) l l' : Forall2 R l l' -> (forall a b, In a l -> R a b -> R' a b) -> Forall2 R' l l'.
Proof. induction 1 as [|x y l l' H F IH]; intros K; constructor; [apply K; auto; now left|]. apply IH. intros a b Ha. apply K. now right. Qed.
Lemma f2_in_r {A B} (R : A -> B -> Prop) l l' y : Forall2 R l l' -> In y l' -> exists x, In x l /\ R x y.
Proof. induction 1 as [|a b l l' H F IH]; intros []; [subst; exists a; split; [now left|exact H]|]. destruct IH as (x & Hx & Hr); auto. exists x. split; [now right|exact Hr]. Qed.
Lemma f2_without {A B} (R : A -> B -> Prop) l l' i : Forall2 R l l' -> Forall2 R (without i l) (without i l').
Proof.
  unfold without. intros F. revert i. induction F as [|a b l l' H F IH]; intros [|i]; cbn; auto. constructor; [exact H|]. apply (IH i).
Qed.
Lemma without_in {A} i (l : list A) x : In x (without i l) -> In x l.
Proof. unfold without. intros H. apply in_app_or in H as [H|H]; [rewrite <- (firstn_skipn i l)|rewrite <- (firstn_skipn (S i) l)]; apply in_or_app; auto. Qed.
Lemma without_map {A B} (f : A -> B) i l : map f (without i l) = without i (map f l).
Proof. unfold without. rewrite map_app, firstn_map, skipn_map. reflexivity. Qed.
Lemma without_nodup {A} i (l : list A) : NoDup l -> NoDup (without i l).
Proof.
  unfold without. revert i. induction l as [|x l IH]; intros [|i] N; cbn; auto; inversion N as [|? ? Nx N']; subst; auto.
  constructor; [|apply (IH i N')]. intros H. apply Nx. apply (without_in i l). exact H.
Qed.
Lemma without_out {A} i (l : list A) x : NoDup l -> nth_error l i = Some x -> ~ In x (without i l).
Proof.
  unfold without. revert i. induction l as [|y l IH]; intros [|i] N E; cbn in E |- *; try discriminate; inversion N as [|? ? Nx N']; subst.
  - injection E as ->. exact Nx.
  - intros [->|H]; [apply Nx; eapply nth_error_In; eauto|]. exact (IH i N' E H).
Qed.
Lemma nodup_nth {A B} (f : A -> B) l i j x y : NoDup (map f l) -> nth_error l i = Some x -> nth_error l j = Some y -> f x = f y -> i = j.
Proof.
  intros N Ei Ej E. apply (proj1 (NoDup_nth_error (map f l)) N).
  - rewrite map_length. apply nth_error_Some. congruence.
  - now rewrite !nth_error_map, Ei, Ej; cbn; rewrite E.
Qed.
Lemma choose (Q : nat -> nat -> val -> Prop) : forall l : list (nat * nat), NoDup (map snd l) -> (forall m a, In (m, a) l -> exists t, Q m a t) ->
  exists pt, forall m a, In (m, a) l -> Q m a (pt a).
Proof.
  induction l as [|[m a] l IH]; intros N H; [exists (fun _ => VNil); intros m a []|]. cbn in N. inversion N as [|? ? Na N']; subst.
  destruct (IH N') as [pt Hp]; [intros m' a' Hin; apply H; now right|]. destruct (H m a (or_introl eq_refl)) as [t Ht].
  exists (fun x => if Nat.eqb x a then t else pt x). intros m' a' [E|Hin].
  - injection E as <- <-. now rewrite Nat.eqb_refl.
  - destruct (Nat.eqb_spec a' a) as [->|Ne]; [|auto]. destruct Na. apply in_map_iff. exists (m', a). auto.
Qed.

Lemma in_firstn {A} n (l : list A) x : In x (firstn n l) -> In x l.
Proof. intros H. rewrite <- (firstn_skipn n l). apply in_or_app. now left. Qed.
Lemma in_skipn {A} n (l : list A) x : In x (skipn n l) -> In x l.
Proof. intros H. rewrite <- (firstn_skipn n l). apply in_or_app. now right. Qed.

Section Hist.
Variable sc : schema.
Hypothesis W : wf_schema sc = true.
Hypothesis UD : up_dec_ok sc.
Hypothesis UC : up_compact sc.
Hypothesis UN : up_no_nil sc.
Hypothesis PL : pools_local sc.
Variable grow : nat -> nat.
Variables uunm uext : nat -> nat -> list Z -> list obj -> bool * list obj.
Variable uclone : nat -> hval -> list obj -> option (hval * list obj).
Hypothesis UU : up_owns sc true true false (fun md => md_foreign md = true) (up_dec (sc_up sc)) uunm.
Hypothesis UE : up_owns sc true true false (fun md => md_ext md <> []) (up_ext (sc_up sc)) uext.
Hypothesis UCL : up_clone_ok sc.
Hypothesis UCM : up_clone_more sc.
Hypothesis UO : up_clone_owns sc uclone.
Notation own := (owns true true false none).
Notation rs := (rs sc text (keeps sc)). Notation rm := (rm sc text (keeps sc)).
Notation nn := (no_nil_elements sc).
Notation rn := (rn sc).
Notation new m := (new_msg (md_of sc m)).

(** * What stays true *)
Definition mine (pc : nat -> nat) (a : nat) : nat -> Prop := fun b => pc b = S a.
Definition msg_ok (pc : nat -> nat) (h : list obj) (x : nat * nat) (y : nat * val) : Prop :=
  fst x = fst y /\ md_foreign (md_of sc (fst x)) = false /\ target sc (fst x) (snd y) /\ exists t, rn (fst x) t (snd y) /\ own h (mine pc (snd x)) t (HPtr (snd x)).
Definition waits (pc : nat -> nat) (h : list obj) (m a : nat) : Prop :=
  md_pool (md_of sc m) = true /\ exists t, rn m t (new m) /\ own h (mine pc a) t (HPtr a).
Definition buf_ok (pc : nat -> nat) (h : list obj) (a : nat) (bs : list Z) : Prop :=
  nth_error h a = Some (OBytes bs) /\ pc a = 0%nat /\ bytes_ok bs = true /\ small bs.
Record inv (pc : nat -> nat) (w : world) (d : desk) : Prop := {
  i_low : forall b, pc b <> 0%nat -> (b < length (heap (w_mem w)))%nat;
  i_msgs : Forall2 (msg_ok pc (heap (w_mem w))) (w_msgs w) (d_msgs d);
  i_free : forall m a, In (m, a) (free (w_mem w)) -> waits pc (heap (w_mem w)) m a;
  i_held : NoDup (map snd (w_msgs w));
  i_pool : NoDup (map snd (free (w_mem w)));
  i_apart : forall a, In a (map snd (w_msgs w)) -> ~ In a (map snd (free (w_mem w)));
  i_bufs : Forall2 (buf_ok pc (heap (w_mem w))) (w_bufs w) (d_bufs d);
  i_distinct : NoDup (w_bufs w) }.

Lemma own_at h P t a : own h P t (HPtr a) -> P a.
Proof.
  destruct t; cbn [owns]; try discriminate; try contradiction.
  - intros [O|[_ O]]; contradiction O.
  - now intros (? & ? & [= <-] & O & _).
  - intros (? & ? & ? & ? & ? & E' & _). discriminate E'.
  - intros (? & ? & ? & E' & _). discriminate E'.
  - now intros (? & ? & [= <-] & O & _).
  - now intros (_ & ? & ? & ? & ? & ? & [= <-] & O & _).
Qed.
Lemma held_color pc w d a : inv pc w d -> In a (map snd (w_msgs w)) -> pc a = S a.
Proof.
  intros I H. apply in_map_iff in H as ([m x] & <- & Hin). cbn [snd]. destruct (In_nth_error _ _ Hin) as [i Ei]. pose proof (f2_nth _ _ _ (i_msgs _ _ _ I) i) as X. rewrite Ei in X.
  destruct (nth_error (d_msgs d) i) as [[m' b]|]; [|contradiction]. destruct X as (_ & _ & _ & t & _ & O). apply own_at in O. exact O.
Qed.
Lemma pool_color pc w d a : inv pc w d -> In a (map snd (free (w_mem w))) -> pc a = S a.
Proof. intros I H. apply in_map_iff in H as ([m x] & <- & Hin). destruct (i_free _ _ _ I m x Hin) as (_ & t & _ & O). exact (own_at _ _ _ _ O). Qed.
Lemma pooled_not pc w d a b : inv pc w d -> In a (map snd (w_msgs w)) -> pc b = S a -> pooled pc (w_mem w) b = false.
Proof.
  intros I Ha E. destruct (pooled pc (w_mem w) b) eqn:X; [|reflexivity]. exfalso. apply pooled_in in X as (m & a' & Hin & E'). assert (a' = a) as -> by congruence.
  apply (i_apart _ _ _ I a Ha). apply in_map_iff. exists (m, a). auto.
Qed.
Lemma pooled_zero pc s b : pc b = 0%nat -> pooled pc s b = false.
Proof. intros E. destruct (pooled pc s b) eqn:X; [|reflexivity]. apply pooled_in in X as (m & a & _ & E'). congruence. Qed.
Definition pr (m : nat) (x : val) : Prop := rn m x (new m).
Lemma inv_base pc w d (P : nat -> Prop) : inv pc w d -> (forall b, P b -> (b < length (heap (w_mem w)))%nat /\ pooled pc (w_mem w) b = false) ->
  exists pt, base true true false none pc pt pr P (w_mem w).
Proof.
  intros I HP. destruct (choose (fun m a t => rn m t (new m) /\ own (heap (w_mem w)) (mine pc a) t (HPtr a)) (free (w_mem w)) (i_pool _ _ _ I)) as [pt Hp].
  { intros m a Hin. destruct (i_free _ _ _ I m a Hin) as (_ & t & R & O). eauto. }
  exists pt. split; [exact HP|]. split; [intros b []|]. split.
  - intros b X. apply pooled_in in X as (m & a & _ & E). apply (i_low _ _ _ I). congruence.
  - split; [apply (i_pool _ _ _ I)|]. split; [|discriminate]. intros m a Hin. apply (Hp m a Hin).
Qed.

(** * Steps that draw from the pools *)
Section Goes.
Variables (pc : nat -> nat) (pt : nat -> val) (P : nat -> Prop) (a0 : nat) (w : world) (d : desk) (s' : mem).
Notation s := (w_mem w).
Hypothesis I : inv pc w d.
Hypothesis B : base true true false none pc pt pr P s.
Hypothesis G : goes pc P s s'.
Hypothesis HP : forall b, P b -> pc b = S a0.
Definition pc' (x : nat) : nat := if newb pc s s' x then S a0 else pc x.
Lemma newb_old b : (b < length (heap s))%nat -> pooled pc s b = false \/ pooled pc s' b = true -> newb pc s s' b = false.
Proof. intros L H. destruct (newb pc s s' b) eqn:X; [|reflexivity]. apply newb_iff in X as [X|X]; [lia|]. apply drew_iff in X as [X1 X2]. destruct H; congruence. Qed.
Lemma keep_color a t v : (forall b, pc b = S a -> ~ P b /\ (pooled pc s b = false \/ pooled pc s' b = true)) -> own (heap s) (mine pc a) t v -> own (heap s') (mine pc' a) t v.
Proof.
  intros H O. eapply own_keep; [intros b []| |exact O]. intros b Hb. unfold mine in *. destruct (H b Hb) as [Nb X].
  assert (b < length (heap s))%nat as L by (apply (i_low _ _ _ I); congruence). split; [|eapply goes_keep; eauto]. unfold pc'. now rewrite newb_old.
Qed.
Lemma other_kept x b : In x (map snd (w_msgs w)) -> x <> a0 -> pc b = S x -> pc' b = S x /\ nth_error (heap s') b = nth_error (heap s) b.
Proof.
  intros Hin Ne Hb. assert (b < length (heap s))%nat as L by (apply (i_low _ _ _ I); congruence).
  assert (pooled pc s b = false) as Np by (eapply pooled_not; eauto). split; [unfold pc'; rewrite newb_old; auto|].
  eapply goes_keep; eauto. intros Pb. apply HP in Pb. congruence.
Qed.
Lemma low' b : pc' b <> 0%nat -> (b < length (heap s'))%nat.
Proof.
  unfold pc'. destruct (newb pc s s' b) eqn:X; intros H.
  - now destruct (new_fresh _ _ _ _ _ _ _ _ _ _ _ B G X).
  - apply (i_low _ _ _ I) in H. destruct G as [L _]. lia.
Qed.
Lemma held_kept x y : In x (w_msgs w) -> snd x <> a0 -> msg_ok pc (heap s) x y -> msg_ok pc' (heap s') x y.
Proof.
  intros Hin Ne (E & F & T & t & R & O). split; [exact E|]. split; [exact F|]. split; [exact T|]. exists t. split; [exact R|].
  apply keep_color; [|exact O]. intros b Hb. split; [intros Pb; apply HP in Pb; congruence|]. left. eapply pooled_not; eauto. now apply in_map.
Qed.
Lemma free_kept m a : In (m, a) (free s') -> waits pc' (heap s') m a.
Proof.
  intros Hin. assert (In (m, a) (free s)) as Hs by now apply (proj1 (proj2 (proj2 G))). destruct (i_free _ _ _ I m a Hs) as (Pm & t & R & O). split; [exact Pm|]. exists t. split; [exact R|].
  apply keep_color; [|exact O]. intros b Hb. split; [|right; apply pooled_in; eauto]. intros Pb. destruct B as [B1 _]. destruct (B1 b Pb) as [_ X].
  assert (pooled pc s b = true) by (apply pooled_in; eauto). congruence.
Qed.
Lemma zero_kept b : (b < length (heap s))%nat -> pc b = 0%nat -> nth_error (heap s') b = nth_error (heap s) b /\ pc' b = 0%nat.
Proof.
  intros L E. split.
  - eapply goes_keep; eauto; [intros Pb; apply HP in Pb; congruence|left; now apply pooled_zero].
  - unfold pc'. now rewrite newb_old by (auto using pooled_zero).
Qed.
Lemma bufs_kept : Forall2 (buf_ok pc' (heap s')) (w_bufs w) (d_bufs d).
Proof.
  eapply f2_mono; [exact (i_bufs _ _ _ I)|]. intros a bs _ (N & Z0 & K). assert (a < length (heap s))%nat as L by (apply nth_error_Some; congruence).
  destruct (zero_kept a L Z0) as [E1 E2]. split; [congruence|]. split; [exact E2|exact K].
Qed.
Lemma apart' a : In a (map snd (w_msgs w)) -> ~ In a (map snd (free s')).
Proof. intros H H'. apply (i_apart _ _ _ I a H). apply in_map_iff in H' as (e & <- & H'). apply in_map. now apply (proj1 (proj2 (proj2 G))). Qed.
Lemma pool' : NoDup (map snd (free s')).
Proof. apply G. apply (i_pool _ _ _ I). Qed.
End Goes.

(** One held message changes. *)
Lemma change_step pc pt w d s' i m a y t y' : inv pc w d -> nth_error (w_msgs w) i = Some (m, a) -> nth_error (d_msgs d) i = Some (m, y) ->
  base true true false none pc pt pr (mine pc a) (w_mem w) -> goes pc (mine pc a) (w_mem w) s' ->
  target sc m y' -> rn m t y' -> own (heap s') (gr pc (mine pc a) (w_mem w) s') t (HPtr a) ->
  inv (pc' pc a w s') (World s' (w_msgs w) (w_bufs w)) (Desk (list_set (d_msgs d) i (m, y')) (d_bufs d)).
Proof.
  intros I Ei Ey B G T R O. assert (forall b, mine pc a b -> pc b = S a) as HP by (intros b Hb; exact Hb). constructor; cbn [w_mem w_msgs w_bufs d_msgs d_bufs].
  - intros b Hb. eapply low'; eauto.
  - eapply f2_change; [exact (i_msgs _ _ _ I)|exact Ei| |].
    + pose proof (f2_nth _ _ _ (i_msgs _ _ _ I) i) as X. rewrite Ei, Ey in X. destruct X as (_ & F & _). split; [reflexivity|]. split; [exact F|]. split; [exact T|]. exists t. split; [exact R|].
      eapply own_mono; [|exact O]. cbn [snd]. unfold mine, pc'. intros b [Hb|Hb]; [|now rewrite Hb]. destruct (newb pc (w_mem w) s' b); [reflexivity|exact Hb].
    + intros j x z Nj Ej _. eapply held_kept; eauto; [eapply nth_error_In; eauto|]. intros E. apply Nj. eapply nodup_nth; [exact (i_held _ _ _ I)|exact Ej|exact Ei|exact E].
  - intros m' a'. eapply free_kept; eauto.
  - exact (i_held _ _ _ I).
  - eapply pool'; eauto.
  - intros b. eapply apart'; eauto.
  - eapply bufs_kept; eauto.
  - exact (i_distinct _ _ _ I).
Qed.
(** A message is made. *)
Lemma fresh_step pc pt w d s' m a t y : inv pc w d -> md_foreign (md_of sc m) = false -> base true true false none pc pt pr none (w_mem w) -> goes pc none (w_mem w) s' ->
  own (heap s') (since pc (w_mem w) s') t (HPtr a) -> rn m t y -> target sc m y ->
  inv (pc' pc a w s') (World s' (w_msgs w ++ [(m, a)]) (w_bufs w)) (Desk (d_msgs d ++ [(m, y)]) (d_bufs d)).
Proof.
  intros I F B G O R T. assert (forall b, none b -> pc b = S a) as HP by (intros b []). pose proof (own_at _ _ _ _ O) as Na. unfold since in Na.
  assert (forall x, In x (map snd (w_msgs w)) -> x <> a) as Nh.
  { intros x Hx ->. pose proof (held_color _ _ _ _ I Hx) as C. rewrite (newb_old pc w s' a) in Na; [discriminate| |left; eapply pooled_not; eauto]. apply (i_low _ _ _ I). congruence. }
  assert (~ In a (map snd (free s'))) as Nf.
  { intros Hx. apply in_map_iff in Hx as ([m' x] & <- & Hx). cbn [snd] in *. assert (In (m', x) (free (w_mem w))) as Hs by now apply (proj1 (proj2 (proj2 G))).
    assert (pc x = S x) as C by (eapply pool_color; eauto; apply in_map_iff; exists (m', x); auto).
    rewrite (newb_old pc w s' x) in Na; [discriminate| |right; apply pooled_in; eauto]. apply (i_low _ _ _ I). congruence. }
  constructor; cbn [w_mem w_msgs w_bufs d_msgs d_bufs].
  - intros b Hb. eapply low'; eauto.
  - apply Forall2_app.
    + eapply f2_mono; [exact (i_msgs _ _ _ I)|]. intros x z Hx. eapply held_kept; eauto. apply Nh. now apply in_map.
    + constructor; [|constructor]. split; [reflexivity|]. split; [exact F|]. split; [exact T|]. exists t. split; [exact R|].
      eapply own_mono; [|exact O]. cbn [snd]. unfold mine, pc', since. intros b Hb. now rewrite Hb.
  - intros m' a'. eapply free_kept; eauto.
  - rewrite map_app. apply nodup_app; [exact (i_held _ _ _ I)|cbn; constructor; [intros []|constructor]|]. intros x Hx [<-|[]]. now apply (Nh _ Hx).
  - eapply pool'; eauto.
  - intros b Hb. rewrite map_app in Hb. apply in_app_or in Hb as [Hb|[<-|[]]]; [eapply apart'; eauto|exact Nf].
  - eapply bufs_kept; eauto.
  - exact (i_distinct _ _ _ I).
Qed.

(** * Steps that give to the pools *)
Lemma own_depth h t : forall (P : nat -> Prop) L v, (forall b, P b -> In b L) -> own h P t v -> (vdepth t <= length L)%nat.
Proof.
  assert (forall a (L : list nat), In a L -> (length (remove Nat.eq_dec a L) < length L)%nat) as Rm by (intros; now apply remove_length_lt).
  assert (forall (P : nat -> Prop) a L, (forall b, P b -> In b L) -> forall b, P b /\ b <> a -> In b (remove Nat.eq_dec a L)) as Rp by (intros P a L H b [Pb Nb]; apply in_in_remove; auto).
  induction t using val_tree_ind; intros P L v HP O; cbn [vdepth]; try lia.
  - destruct O as (a & y & _ & Pa & _ & O). specialize (Rm a L (HP a Pa)). pose proof (IHt _ _ _ (Rp P a L HP) O). lia.
  - apply own_list in O as (a & off & cap & es & c & _ & Pa & _ & _ & _ & F). specialize (Rm a L (HP a Pa)).
    assert (forall x, In x l -> (vdepth x <= length (remove Nat.eq_dec a L))%nat) as K.
    { intros x Hx. destruct (In_nth_error _ _ Hx) as [j Ej]. eapply (H x Hx); [|exact (F j x Ej)]. intros b (Pb & Nb & _). apply (Rp P a L HP). auto. }
    clear - K Rm. assert (fold_right (fun x n => Nat.max (vdepth x) n) 0%nat l <= length (remove Nat.eq_dec a L))%nat; [|lia].
    induction l as [|x l IH]; cbn; [lia|]. pose proof (K x (or_introl eq_refl)). assert (forall y, In y l -> (vdepth y <= length (remove Nat.eq_dec a L))%nat) as K' by (intros; apply K; now right). specialize (IH K'). lia.
  - apply own_map in O as (a & es & c & _ & Pa & _ & Le & F). specialize (Rm a L (HP a Pa)).
    assert (forall e, In e l -> (vdepth (snd e) <= length (remove Nat.eq_dec a L))%nat) as K.
    { intros e He. destruct (In_nth_error _ _ He) as [j Ej]. assert (j < length es)%nat as Lj by (rewrite Le; apply nth_error_Some; congruence).
      destruct (F j e _ Ej (nth_error_nth' es (HNil, HNil) Lj)) as [_ O]. destruct (H e He) as [_ H2]. eapply H2; [|exact O]. intros b (Pb & Nb & _). apply (Rp P a L HP). auto. }
    clear - K Rm. assert (fold_right (fun p n => Nat.max (vdepth (snd p)) n) 0%nat l <= length (remove Nat.eq_dec a L))%nat; [|lia].
    induction l as [|x l IH]; cbn; [lia|]. pose proof (K x (or_introl eq_refl)). assert (forall y, In y l -> (vdepth (snd y) <= length (remove Nat.eq_dec a L))%nat) as K' by (intros; apply K; now right). specialize (IH K'). lia.
  - destruct O as (a & y & _ & Pa & _ & O). specialize (Rm a L (HP a Pa)). pose proof (IHt _ _ _ (Rp P a L HP) O). lia.
  - apply own_msg in O as (_ & a & hs & w & c & _ & Pa & _ & _ & _ & _ & F). specialize (Rm a L (HP a Pa)).
    match goal with |- (S (fold_right _ _ ?s) <= _)%nat => rename s into ss end.
    assert (forall x, In x ss -> (vdepth x <= length (remove Nat.eq_dec a L))%nat) as K.
    { intros x Hx. destruct (In_nth_error _ _ Hx) as [j Ej]. assert (j < length ss)%nat as Lj by (apply nth_error_Some; congruence).
      destruct (F j Lj) as (k & O & _). unfold slot in O. erewrite nth_error_nth in O by exact Ej. eapply (H x Hx); [|exact O]. intros b ((Pb & Nb & _) & _). apply (Rp P a L HP). auto. }
    clear - K Rm. assert (fold_right (fun x n => Nat.max (vdepth x) n) 0%nat ss <= length (remove Nat.eq_dec a L))%nat; [|lia].
    induction ss as [|x l IH]; cbn; [lia|]. pose proof (K x (or_introl eq_refl)). assert (forall y, In y l -> (vdepth y <= length (remove Nat.eq_dec a L))%nat) as K' by (intros; apply K; now right). specialize (IH K'). lia.
Qed.

Lemma levels_ok pc w d a t v : inv pc w d -> own (heap (w_mem w)) (mine pc a) t v -> (S (vdepth t) < levels (w_mem w))%nat.
Proof.
  intros I O. unfold levels. assert (vdepth t <= length (seq 0 (length (heap (w_mem w)))))%nat as L; [|rewrite seq_length in L; lia].
  eapply own_depth; [|exact O]. intros b Hb. apply in_seq. unfold mine in Hb. assert (b < length (heap (w_mem w)))%nat by (apply (i_low _ _ _ I); congruence). lia.
Qed.
Section Gives.
Variables (pc c : nat -> nat) (a0 : nat) (w : world) (d : desk) (L : list (nat * nat)) (q : puts) (s' : mem).
Notation s := (w_mem w).
Hypothesis I : inv pc w d.
Hypothesis Ha : In a0 (map snd (w_msgs w)).
Hypothesis In0 : into (mine pc a0) s L s'.
Hypothesis Gv : gave true false none (heap s') (mine pc a0) c q L.
Hypothesis Gq : Forall (good sc) q.
Definition pd (b : nat) : nat := if Nat.eqb (pc b) (S a0) && negb (Nat.eqb (c b) 0) then c b else pc b.
Lemma pd_other b a : pc b = S a -> a <> a0 -> pd b = S a.
Proof. intros E N. unfold pd. replace (Nat.eqb (pc b) (S a0)) with false; [exact E|]. symmetry. apply Nat.eqb_neq. congruence. Qed.
Lemma pd_zero b : pc b = 0%nat -> pd b = 0%nat.
Proof. intros E. unfold pd. now rewrite E. Qed.
Lemma pd_given b x : pc b = S a0 -> c b = S x -> pd b = S x.
Proof. intros E E'. unfold pd. now rewrite E, E', Nat.eqb_refl. Qed.
Lemma pd_kept b : pc b = S a0 -> c b = 0%nat -> pd b = S a0.
Proof. intros E E'. unfold pd. now rewrite E, E', Nat.eqb_refl. Qed.
Lemma give_low b : pd b <> 0%nat -> (b < length (heap s'))%nat.
Proof.
  destruct In0 as (E & _). rewrite E. unfold pd. destruct (Nat.eqb (pc b) (S a0)) eqn:X; cbn [andb]; intros H; apply (i_low _ _ _ I); [|exact H]. apply Nat.eqb_eq in X. congruence.
Qed.
Lemma give_color a t v : a <> a0 -> own (heap s) (mine pc a) t v -> own (heap s') (mine pd a) t v.
Proof.
  intros N O. eapply own_keep; [intros b []| |exact O]. unfold mine. intros b Hb. split; [now apply pd_other|]. apply In0. unfold mine. congruence.
Qed.
Lemma give_other x b : x <> a0 -> pc b = S x -> pd b = S x /\ nth_error (heap s') b = nth_error (heap s) b.
Proof. intros Ne Hb. split; [now apply pd_other|]. apply In0. unfold mine. congruence. Qed.
Lemma give_held x y : snd x <> a0 -> msg_ok pc (heap s) x y -> msg_ok pd (heap s') x y.
Proof. intros N (E & F & T & t & R & O). split; [exact E|]. split; [exact F|]. split; [exact T|]. exists t. split; [exact R|]. now apply give_color. Qed.
Lemma rn_good m t : good sc (m, t) -> rn m t (new m).
Proof. intros X. pose proof X as (Pm & _). split; [|now apply nn_new]. apply rs_msg; [now apply PL|]. apply good_rm; auto. Qed.
Lemma give_free m a : In (m, a) (free s') -> waits pd (heap s') m a.
Proof.
  destruct In0 as (_ & _ & E & _). rewrite E. intros H. apply in_app_or in H as [H|H].
  - destruct Gv as [_ F]. apply in_rev in H. destruct (f2_in_r _ _ _ _ F H) as ([m1 t] & Hq & E1 & O). cbn [fst snd] in *. subst m1.
    pose proof (proj1 (Forall_forall _ _) Gq _ Hq) as X. split; [apply X|]. exists t. split; [now apply rn_good|].
    eapply own_mono; [|exact O]. cbv beta. unfold mine. intros b [Pb Cb]. now apply pd_given.
  - destruct (i_free _ _ _ I m a H) as (Pm & t & R & O). split; [exact Pm|]. exists t. split; [exact R|]. apply give_color; [|exact O]. intros ->.
    apply (i_apart _ _ _ I a0 Ha). apply in_map_iff. exists (m, a0). auto.
Qed.
Lemma given x : In x (map snd L) -> pc x = S a0 /\ c x = S x.
Proof. intros H. exact (gave_in _ _ _ _ _ _ _ _ _ Gv H). Qed.
Lemma give_pool : NoDup (map snd (free s')).
Proof.
  destruct In0 as (_ & _ & E & _). rewrite E, map_app. apply nodup_app; [apply Gv|apply (i_pool _ _ _ I)|]. intros x H1 H2. apply given in H1 as [E1 _].
  pose proof (pool_color _ _ _ _ I H2) as E2. assert (x = a0) as -> by congruence. now apply (i_apart _ _ _ I a0).
Qed.
Lemma give_apart x : In x (map snd (w_msgs w)) -> x <> a0 \/ c a0 = 0%nat -> ~ In x (map snd (free s')).
Proof.
  intros H N H'. destruct In0 as (_ & _ & E & _). rewrite E, map_app in H'. apply in_app_or in H' as [H'|H']; [|now apply (i_apart _ _ _ I x)].
  apply given in H' as [E1 E2]. pose proof (held_color _ _ _ _ I H) as E3. assert (x = a0) as -> by congruence. destruct N; congruence.
Qed.
Lemma give_bufs : Forall2 (buf_ok pd (heap s')) (w_bufs w) (d_bufs d).
Proof.
  eapply f2_mono; [exact (i_bufs _ _ _ I)|]. intros a bs _ (N & Z0 & K). split; [|split; [now apply pd_zero|exact K]]. rewrite <- N. apply In0. unfold mine. congruence.
Qed.
End Gives.

Lemma held_facts pc w d i m a : inv pc w d -> nth_error (w_msgs w) i = Some (m, a) ->
  exists y t, nth_error (d_msgs d) i = Some (m, y) /\ md_foreign (md_of sc m) = false /\ target sc m y /\ rn m t y /\ own (heap (w_mem w)) (mine pc a) t (HPtr a) /\ In a (map snd (w_msgs w)).
Proof.
  intros I E. pose proof (f2_nth _ _ _ (i_msgs _ _ _ I) i) as X. rewrite E in X. destruct (nth_error (d_msgs d) i) as [[m' y]|] eqn:Ey; [|contradiction].
  destruct X as (Em & F & T & t & R & O). cbn [fst snd] in *. subst m'. exists y, t. do 5 (split; auto). apply in_map_iff. exists (m, a). split; [reflexivity|]. eapply nth_error_In; eauto.
Qed.
Lemma held_none pc w d i : inv pc w d -> nth_error (w_msgs w) i = None -> nth_error (d_msgs d) i = None.
Proof. intros I E. pose proof (f2_nth _ _ _ (i_msgs _ _ _ I) i) as X. rewrite E in X. destruct (nth_error (d_msgs d) i); [contradiction|reflexivity]. Qed.

Notation hstep := (hstep sc grow uunm uext uclone).
Notation pstep := (pstep sc).
(** The step changes no message but the one it is about, and no buffer but that. *)
Definition keeps_others (pc pc' : nat -> nat) (w w' : world) (o : op) : Prop :=
  (forall j m a b, nth_error (w_msgs w) j = Some (m, a) -> about o <> Some j -> pc b = S a -> pc' b = S a /\ nth_error (heap (w_mem w')) b = nth_error (heap (w_mem w)) b) /\
  (forall j a, nth_error (w_bufs w) j = Some a -> writes o <> Some j -> nth_error (heap (w_mem w')) a = nth_error (heap (w_mem w)) a).
Definition follows (pc : nat -> nat) (w : world) (d : desk) (o : op) : Prop :=
  exists w' pc', hstep o w = Some (fst (pstep o d), w') /\ inv pc' w' (snd (pstep o d)) /\ keeps_others pc pc' w w' o.
Lemma others_refl pc w o : keeps_others pc pc w w o.
Proof. split; auto. Qed.
Lemma others_goes pc pt P a0 w d s' o ms bs : inv pc w d -> base true true false none pc pt pr P (w_mem w) -> goes pc P (w_mem w) s' -> (forall b, P b -> pc b = S a0) ->
  (forall j m, nth_error (w_msgs w) j = Some (m, a0) -> about o = Some j) -> keeps_others pc (pc' pc a0 w s') w (World s' ms bs) o.
Proof.
  intros I B G HP Ho. split.
  - intros j m a b Ej No Hb. eapply other_kept; eauto; [apply in_map_iff; exists (m, a); split; [reflexivity|eapply nth_error_In; eauto]|]. intros ->. apply No. eapply Ho; eauto.
  - intros j a Ej _. pose proof (f2_nth _ _ _ (i_bufs _ _ _ I) j) as X. rewrite Ej in X. destruct (nth_error (d_bufs d) j); [|contradiction]. destruct X as (N & Z0 & _).
    eapply zero_kept; eauto. apply nth_error_Some. congruence.
Qed.
Lemma others_gives pc c a0 w d L s' o ms bs : inv pc w d -> into (mine pc a0) (w_mem w) L s' ->
  (forall j m, nth_error (w_msgs w) j = Some (m, a0) -> about o = Some j) -> keeps_others pc (pd pc c a0) w (World s' ms bs) o.
Proof.
  intros I In0 Ho. split.
  - intros j m a b Ej No Hb. eapply give_other; eauto. intros ->. apply No. eapply Ho; eauto.
  - intros j a Ej _. pose proof (f2_nth _ _ _ (i_bufs _ _ _ I) j) as X. rewrite Ej in X. destruct (nth_error (d_bufs d) j); [|contradiction]. destruct X as (N & Z0 & _).
    apply In0. unfold mine. congruence.
Qed.
Lemma only pc w d i m a : inv pc w d -> nth_error (w_msgs w) i = Some (m, a) -> forall j m', nth_error (w_msgs w) j = Some (m', a) -> Some i = Some j.
Proof. intros I Ei j m' Ej. f_equal. apply (nodup_nth snd (w_msgs w) i j (m, a) (m', a)); auto. apply (i_held _ _ _ I). Qed.

Lemma reset_follows pc w d i : inv pc w d -> follows pc w d (OReset i).
Proof.
  intros I. unfold follows. cbn [HeapHist.hstep HeapHist.pstep]. cbv zeta. destruct (nth_error (w_msgs w) i) as [[m a]|] eqn:Ei.
  2:{ rewrite (held_none _ _ _ _ I Ei). cbn. eauto using others_refl. }
  destruct (held_facts _ _ _ _ _ _ I Ei) as (y & t & Ey & F & T & [R N] & O & Ha). rewrite Ey. destruct (md_pool (md_of sc m)) eqn:Pm; [|cbn; eauto using others_refl].
  assert (rm m t y) as M by (inversion R as [|? ? ? F0|? ? ? F0 M]; subst; [inversion T as [X _]; inversion X|congruence|exact M]).
  assert (wt_msg sc m t) as Wt by (eapply rs_wt; [exact W|exact R|apply T]).
  destruct (reset_msg_fine sc W PL (S (vdepth t)) m t ltac:(lia) Pm Wt (rs_nn sc m t y R N)) as [[t' q] Er].
  pose proof (ResetVT_sim sc W PL true false none (S (vdepth t)) (levels (w_mem w)) m t y (HPtr a) (mine pc a) (w_mem w) (levels_ok _ _ _ _ _ _ I O) Pm M (fun _ _ X => X) O) as X.
  rewrite Er in X. cbn [sim_reset] in X. destruct X as (s' & L & c & E & In0 & O' & Gv & _). rewrite E. cbn [fst snd].
  change (ResetVT sc m t = Ok (t', q)) in Er. destruct (ResetVT_ok sc W PL m t y t' q Pm M Er) as (Em & Ti & Gq).
  eexists _, (pd pc c a). split; [reflexivity|]. split; [|eapply others_gives; eauto; now apply (only pc w d i m a)]. pose proof (own_at _ _ _ _ O') as [_ Ca]. constructor; cbn [w_mem w_msgs w_bufs d_msgs d_bufs].
  - intros b. eapply give_low; eauto.
  - eapply f2_change; [exact (i_msgs _ _ _ I)|exact Ei| |].
    + split; [reflexivity|]. split; [exact F|]. split; [now apply target_new|]. exists t'. split; [apply rn_good; split; auto|]. eapply own_mono; [|exact O']. cbv beta. cbn [snd]. unfold mine. intros b [Pb Cb]. now apply pd_kept.
    + intros j x z Nj Ej _. eapply give_held; eauto. intros Ex. apply Nj. eapply nodup_nth; [exact (i_held _ _ _ I)|exact Ej|exact Ei|exact Ex].
  - intros m' a'. eapply give_free; eauto.
  - exact (i_held _ _ _ I).
  - eapply give_pool; eauto.
  - intros x Hx. eapply give_apart; eauto.
  - eapply give_bufs; eauto.
  - exact (i_distinct _ _ _ I).
Qed.
Lemma return_follows pc w d i : inv pc w d -> follows pc w d (OReturn i).
Proof.
  intros I. unfold follows. cbn [HeapHist.hstep HeapHist.pstep]. cbv zeta. destruct (nth_error (w_msgs w) i) as [[m a]|] eqn:Ei.
  2:{ rewrite (held_none _ _ _ _ I Ei). cbn. eauto using others_refl. }
  destruct (held_facts _ _ _ _ _ _ I Ei) as (y & t & Ey & F & T & [R N] & O & Ha). rewrite Ey. destruct (md_pool (md_of sc m)) eqn:Pm; [|cbn; eauto using others_refl].
  assert (wt_msg sc m t) as Wt by (eapply rs_wt; [exact W|exact R|apply T]).
  destruct (reset_msg_fine sc W PL (S (vdepth t)) m t ltac:(lia) Pm Wt (rs_nn sc m t y R N)) as [[t' q0] Er].
  pose proof (ReturnToVTPool_sim sc W PL true false none (levels (w_mem w)) m t y (HPtr a) (mine pc a) (w_mem w) (levels_ok _ _ _ _ _ _ I O) Pm R (fun _ _ X => X) O) as X.
  assert (exists q, ReturnToVTPool sc m t = Ok q) as [q Eq].
  { inversion Wt; subst. unfold ReturnToVTPool, ResetVT. rewrite Er. cbn. eauto using others_refl. }
  rewrite Eq in X. destruct X as (s' & L & c & E & In0 & Gv). rewrite E. cbn [fst snd].
  pose proof (ReturnToVTPool_ok sc W PL m t y q Pm R Eq) as Gq.
  assert (forall x, In x (map snd (without i (w_msgs w))) -> In x (map snd (w_msgs w)) /\ x <> a) as Wo.
  { intros x Hx. rewrite without_map in Hx. split; [now apply without_in in Hx|]. intros ->. revert Hx. apply without_out; [exact (i_held _ _ _ I)|]. now rewrite nth_error_map, Ei. }
  eexists _, (pd pc c a). split; [reflexivity|]. split; [|eapply others_gives; eauto; now apply (only pc w d i m a)]. constructor; cbn [w_mem w_msgs w_bufs d_msgs d_bufs].
  - intros b. eapply give_low; eauto.
  - eapply f2_mono; [apply f2_without; exact (i_msgs _ _ _ I)|]. intros x z Hx. eapply give_held; eauto. apply Wo. now apply in_map.
  - intros m' a'. eapply give_free; eauto.
  - rewrite without_map. apply without_nodup. exact (i_held _ _ _ I).
  - eapply give_pool; eauto.
  - intros x Hx. destruct (Wo x Hx). eapply give_apart; eauto.
  - eapply give_bufs; eauto.
  - exact (i_distinct _ _ _ I).
Qed.
Lemma forget_follows pc w d i : inv pc w d -> follows pc w d (OForget i).
Proof.
  intros I. eexists _, pc. split; [reflexivity|]. split; [|split; auto]. destruct I. constructor; cbn [w_mem w_msgs w_bufs d_msgs d_bufs HeapHist.pstep snd]; auto.
  - now apply f2_without.
  - rewrite without_map. now apply without_nodup.
  - intros a Ha. apply i_apart0. rewrite without_map in Ha. now apply without_in in Ha.
Qed.
Lemma lose_follows pc w d k : inv pc w d -> follows pc w d (OLose k).
Proof.
  intros I. eexists _, pc. split; [reflexivity|]. split; [|split; auto]. destruct I. constructor; cbn [w_mem w_msgs w_bufs d_msgs d_bufs HeapHist.pstep snd heap free]; auto.
  - intros m a Hin. apply i_free0. now apply without_in in Hin.
  - rewrite without_map. now apply without_nodup.
  - intros a Ha Hb. apply (i_apart0 a Ha). rewrite without_map in Hb. now apply without_in in Hb.
Qed.

(** Steps that leave the messages alone. *)
Lemma same_msgs pc w d h' bufs' dbufs' : inv pc w d -> (length (heap (w_mem w)) <= length h')%nat -> (forall b, pc b <> 0%nat -> nth_error h' b = nth_error (heap (w_mem w)) b) ->
  Forall2 (buf_ok pc h') bufs' dbufs' -> NoDup bufs' -> inv pc (World (mkMem h' (free (w_mem w)) (picks (w_mem w))) (w_msgs w) bufs') (Desk (d_msgs d) dbufs').
Proof.
  intros [] L K Bf Nd.
  assert (forall a t v, own (heap (w_mem w)) (mine pc a) t v -> own h' (mine pc a) t v) as Ko.
  { intros a t v O. eapply own_keep; [intros b []| |exact O]. unfold mine. intros b Hb. split; [exact Hb|]. apply K. congruence. }
  constructor; cbn [w_mem w_msgs w_bufs d_msgs d_bufs heap free]; auto.
  - intros b Hb. apply i_low0 in Hb. lia.
  - eapply f2_mono; [exact i_msgs0|]. intros x y _ (E & F & T & t & R & O). split; [exact E|]. split; [exact F|]. split; [exact T|]. eauto.
  - intros m a Hin. destruct (i_free0 m a Hin) as (Pm & t & R & O). split; [exact Pm|]. eauto.
Qed.
Lemma buffer_follows pc w d bs : inv pc w d -> bytes_ok bs = true -> small bs -> follows pc w d (OBuffer bs).
Proof.
  intros I B S0. eexists _, pc. split; [reflexivity|]. split.
  2:{ split; cbn [w_mem heap].
    - intros j m a b _ _ Hb. split; [exact Hb|]. apply nth_error_app1. apply (i_low _ _ _ I). congruence.
    - intros j a Ej _. apply nth_error_app1. pose proof (f2_nth _ _ _ (i_bufs _ _ _ I) j) as X. rewrite Ej in X. destruct (nth_error (d_bufs d) j); [|contradiction]. destruct X as (N & _). apply nth_error_Some. congruence. }
  cbn [HeapHist.pstep snd]. apply (same_msgs pc w d (heap (w_mem w) ++ [OBytes bs])); auto.
  - rewrite app_length. lia.
  - intros b Hb. apply nth_error_app1. now apply (i_low _ _ _ I).
  - apply Forall2_app.
    + eapply f2_mono; [exact (i_bufs _ _ _ I)|]. intros a q _ (N & K). split; [|exact K]. rewrite nth_error_app1; [exact N|]. apply nth_error_Some. congruence.
    + constructor; [|constructor]. split; [rewrite nth_error_app2, Nat.sub_diag by lia; reflexivity|]. split; [|auto]. destruct (pc (length (heap (w_mem w)))) eqn:E; [reflexivity|].
      assert (length (heap (w_mem w)) < length (heap (w_mem w)))%nat by (apply (i_low _ _ _ I); congruence). lia.
  - apply nodup_app; [exact (i_distinct _ _ _ I)|constructor; [intros []|constructor]|]. intros x Hx [<-|[]]. destruct (In_nth_error _ _ Hx) as [j Ej].
    pose proof (f2_nth _ _ _ (i_bufs _ _ _ I) j) as X. rewrite Ej in X. destruct (nth_error (d_bufs d) j); [|contradiction]. destruct X as (X & _).
    assert (length (heap (w_mem w)) < length (heap (w_mem w)))%nat by (apply nth_error_Some; congruence). lia.
Qed.
Lemma write_follows pc w d k bs : inv pc w d -> bytes_ok bs = true -> small bs -> follows pc w d (OWrite k bs).
Proof.
  intros I B S0. unfold follows. cbn [HeapHist.hstep HeapHist.pstep]. cbv zeta. pose proof (f2_nth _ _ _ (i_bufs _ _ _ I) k) as X. destruct (nth_error (w_bufs w) k) as [a|] eqn:Ek.
  2:{ destruct (nth_error (d_bufs d) k); [contradiction|]. cbn. eauto using others_refl. }
  destruct (nth_error (d_bufs d) k) as [old|] eqn:Ed; [|contradiction]. destruct X as (N & Z0 & _).
  unfold acc, bind, load. rewrite N. assert (a < length (heap (w_mem w)))%nat as La by (apply nth_error_Some; congruence).
  destruct (Nat.eqb (length bs) (length old)) eqn:El.
  2:{ cbn [ret fst snd]. eexists _, pc. split; [reflexivity|]. destruct w, d. split; [exact I|split; auto]. }
  unfold Heap.store. rewrite (proj2 (Nat.ltb_lt _ _) La). cbn [fst snd]. eexists _, pc. split; [reflexivity|]. split.
  2:{ split; cbn [w_mem heap].
    - intros j m x b _ _ Hb. split; [exact Hb|]. apply nth_error_set_neq. congruence.
    - intros j x Ej Nj. apply nth_error_set_neq. intros <-. apply Nj. cbn [writes]. f_equal.
      apply (proj1 (NoDup_nth_error (w_bufs w)) (i_distinct _ _ _ I)); [apply nth_error_Some; congruence|congruence]. }
  apply (same_msgs pc w d (Unmarshal.list_set (heap (w_mem w)) a (OBytes bs))); auto.
  - rewrite list_set_length. lia.
  - intros b Hb. apply nth_error_set_neq. congruence.
  - eapply f2_change; [exact (i_bufs _ _ _ I)|exact Ek| |].
    + split; [now apply nth_error_set_eq|auto].
    + intros j x y Nj Ej _ (Nx & K). split; [|exact K]. rewrite nth_error_set_neq; [exact Nx|]. intros <-. apply Nj.
      apply (proj1 (NoDup_nth_error (w_bufs w)) (i_distinct _ _ _ I)); [apply nth_error_Some; congruence|congruence].
  - exact (i_distinct _ _ _ I).
Qed.

(** Steps on one message that draw from the pools. *)
Lemma held_base pc w d a : inv pc w d -> In a (map snd (w_msgs w)) -> exists pt, base true true false none pc pt pr (mine pc a) (w_mem w).
Proof.
  intros I Ha. apply (inv_base _ _ _ _ I). intros b Hb. split; [apply (i_low _ _ _ I); unfold mine in Hb; congruence|]. eapply pooled_not; eauto.
Qed.
Lemma unmarshal_follows pc w d i k off len : inv pc w d -> follows pc w d (OUnmarshal i k off len).
Proof.
  intros I. unfold follows. cbn [HeapHist.hstep HeapHist.pstep]. cbv zeta. destruct (nth_error (w_msgs w) i) as [[m a]|] eqn:Ei.
  2:{ rewrite (held_none _ _ _ _ I Ei). cbn. eauto using others_refl. }
  destruct (held_facts _ _ _ _ _ _ I Ei) as (y & t & Ey & F & T & R & O & Ha). rewrite Ey.
  pose proof (f2_nth _ _ _ (i_bufs _ _ _ I) k) as X. destruct (nth_error (w_bufs w) k) as [b|] eqn:Ek.
  2:{ destruct (nth_error (d_bufs d) k); [contradiction|]. cbn. eauto using others_refl. }
  destruct (nth_error (d_bufs d) k) as [bs|] eqn:Ed; [|contradiction]. destruct X as (N & Z0 & Bb & Sb).
  unfold acc, load. rewrite N. unfold cut. destruct (Nat.leb (off + len) (length bs)) eqn:Le; [|cbn; eauto using others_refl]. apply Nat.leb_le in Le.
  set (q := firstn len (skipn off bs)). set (p := mkIn b off len (length bs - off)).
  assert (bytes_ok q = true) as Bq by (unfold bytes_ok, q in *; apply forallb_forall; intros z Hz; apply (proj1 (forallb_forall _ _) Bb); apply (in_skipn off); apply (in_firstn len); exact Hz).
  assert (small q) as Sq.
  { unfold small, zlen in *. unfold q. rewrite firstn_length, skipn_length. lia. }
  destruct (held_base _ _ _ _ I Ha) as [pt Bs].
  assert (ok true true false none pc pt pr (mine pc a) (w_mem w) p q) as K.
  { split; [exact Bs|]. split; [exists bs; split; [exact N|split; [exact Le|reflexivity]]|]. cbn [in_arr p]. split; [unfold mine; congruence|]. split; [now apply pooled_zero|discriminate]. }
  pose proof (UnmarshalVT_sim true true false none grow pc pt pr sc W UD (fun _ _ => eq_refl) (HeapSimRun.local sc) rn rn (rel_nil sc W UD UC UN) (fun _ _ X => X) uunm uext UU UE (mine pc a) m p q (w_mem w) t y (HPtr a) F Bq Sq T R K O) as X.
  destruct (UnmarshalVT_total sc W UD m q y Bq Sq T) as [(y' & E & T')|(e & y' & E & T')]; rewrite E in *; cbn [unit_of rbind sim] in X; destruct X as (s' & t' & E' & G & O' & R'); rewrite E'; cbn [fst snd].
  - eexists _, (pc' pc a w s'). split; [reflexivity|]. split; [eapply change_step; eauto|]. eapply (others_goes pc pt (mine pc a)); eauto. now apply (only pc w d i m a).
  - eexists _, (pc' pc a w s'). split; [reflexivity|]. split; [eapply change_step; eauto|]. eapply (others_goes pc pt (mine pc a)); eauto. now apply (only pc w d i m a).
Qed.
Lemma find_num m n f : find (fun f => f_num f =? n) (md_fields (md_of sc m)) = Some f -> In f (md_fields (md_of sc m)).
Proof. intros E. apply find_some in E. tauto. Qed.
Lemma set_follows pc w d i n x : inv pc w d -> follows pc w d (OSet i n x).
Proof.
  intros I. unfold follows. cbn [HeapHist.hstep HeapHist.pstep]. cbv zeta. destruct (nth_error (w_msgs w) i) as [[m a]|] eqn:Ei.
  2:{ rewrite (held_none _ _ _ _ I Ei). cbn. eauto using others_refl. }
  destruct (held_facts _ _ _ _ _ _ I Ei) as (y & t & Ey & F & T & R & O & Ha). rewrite Ey.
  destruct (member sc m n x) as [[[f lbl] k]|] eqn:Em; [|cbn; eauto using others_refl]. unfold member in Em.
  destruct (find _ _) as [g|] eqn:Ef; [|discriminate]. apply find_num in Ef. destruct (f_ty g) as [lbl' k'|] eqn:Ty; [|discriminate]. destruct (fits k' x) eqn:Fi; [|discriminate]. injection Em as -> -> ->.
  assert (leaf k x /\ x <> VNil /\ k <> KBytes /\ sub_of k = None /\ wt_elem sc k x /\ forall h P, own h P x (hleaf x)) as (Lx & Nx & Kb & Sk & Wx & Ox).
  { unfold fits in Fi. destruct x; try discriminate.
    - apply andb_true_iff in Fi as [Nk Rk]. split; [left; eauto|]. split; [discriminate|]. split; [intros ->; discriminate|]. split; [destruct k; discriminate || reflexivity|]. split; [now constructor|reflexivity].
    - destruct k; try discriminate. split; [right; left; eauto|]. split; [discriminate|]. split; [discriminate|]. split; [reflexivity|]. split; [now constructor|reflexivity]. }
  destruct (held_base _ _ _ _ I Ha) as [pt Bs].
  pose proof (rel_nil sc W UD UC UN) as OK. destruct (r_shape _ _ _ _ _ OK m t y F T R) as (ss & u & h & ss' & h' & -> & -> & _).
  assert (at_field sc (HeapSimRun.local sc) rn m f ss u h ss' h') as At by (split; [exact F|]; split; [exact Ef|]; split; [exact R|exact T]).
  pose proof (stored_sim true true false none grow pc pt pr sc W (HeapSimRun.local sc) rn rn OK (mine pc a) m f lbl k (w_mem w) ss u h ss' h' (HPtr a) x (hleaf x) 0 Bs At Ty Lx Nx Kb O (Ox _ _)) as X.
  destruct (store_target sc W m f lbl k x _ T Ef Ty Sk Wx ltac:(intros ->; congruence)) as (y' & Es & T'). rewrite Es in *. cbn [orpanic rbind sim] in X.
  destruct X as (s' & t' & E' & G & O' & R'). unfold dbind in E'. destruct (hstore grow f lbl (hleaf x) (HPtr a) (w_mem w)) as [[] s1| | |]; try discriminate. cbn [dret] in E'. injection E' as ->.
  cbn [fst snd]. eexists _, (pc' pc a w s'). split; [reflexivity|]. split; [eapply change_step; eauto|]. eapply (others_goes pc pt (mine pc a)); eauto. now apply (only pc w d i m a).
Qed.
Lemma fresh_not_held pc pt w d s' a t o : inv pc w d -> base true true false none pc pt pr none (w_mem w) -> own (heap s') (since pc (w_mem w) s') t (HPtr a) ->
  forall j m, nth_error (w_msgs w) j = Some (m, a) -> about o = Some j.
Proof.
  intros I B O j m Ej. exfalso. pose proof (own_at _ _ _ _ O) as Na. unfold since in Na.
  assert (In a (map snd (w_msgs w))) as Hx by (apply in_map_iff; exists (m, a); split; [reflexivity|eapply nth_error_In; eauto]).
  pose proof (held_color _ _ _ _ I Hx) as C. rewrite (newb_old pc w s' a) in Na; [discriminate| |left; eapply pooled_not; eauto]. apply (i_low _ _ _ I). congruence.
Qed.
Lemma none_base pc w d : inv pc w d -> exists pt, base true true false none pc pt pr none (w_mem w).
Proof. intros I. apply (inv_base _ _ _ _ I). intros b []. Qed.
Lemma get_follows pc w d m : inv pc w d -> md_pool (md_of sc m) = true -> follows pc w d (OGet m).
Proof.
  intros I Pm. unfold follows. cbn [HeapHist.hstep HeapHist.pstep fst snd]. cbv zeta. destruct (none_base _ _ _ I) as [pt Bs].
  destruct (fresh_sim true true false none grow pc pt pr sc (w_mem w) (md_of sc m) m Bs) as (s1 & a & x & E & G & O & Hx). unfold hfresh in E. rewrite Pm in E. cbn [andb] in E. rewrite E.
  assert (own (heap s1) (since pc (w_mem w) s1) x (HPtr a)) as O1 by exact O.
  eexists _, (pc' pc a w s1). split; [reflexivity|]. split; [|apply (others_goes pc pt none a w d); auto; [intros b []|now apply (fresh_not_held pc pt w d s1 a x)]]. eapply fresh_step; eauto; [|apply target_new; exact W]. destruct Hx as [->|Hx]; [|exact Hx]. exact (r_new _ _ _ _ _ (rel_nil sc W UD UC UN) m).
Qed.
Lemma new_follows pc w d m : inv pc w d -> md_foreign (md_of sc m) = false -> follows pc w d (ONew m).
Proof.
  intros I F. unfold follows. cbn [HeapHist.hstep HeapHist.pstep fst snd]. cbv zeta. destruct (none_base _ _ _ I) as [pt Bs].
  pose (s1 := with_heap (w_mem w) (heap (w_mem w) ++ [new_obj (md_of sc m)])).
  eexists _, (pc' pc (length (heap (w_mem w))) w s1). split; [reflexivity|]. split.
  2:{ eapply (others_goes pc pt none); eauto; [apply goes_alloc|intros b []|]. intros j m' Ej. exfalso.
      assert (length (heap (w_mem w)) < length (heap (w_mem w)))%nat; [|lia]. apply (i_low _ _ _ I). rewrite (held_color pc w d _ I); [discriminate|]. apply in_map_iff. eexists. split; [|eapply nth_error_In; exact Ej]. reflexivity. }
  apply (fresh_step pc pt w d s1 m (length (heap (w_mem w))) (new m) (new m)); auto.
  - apply goes_alloc.
  - cbn [s1 with_heap heap]. apply own_new. change (since pc (w_mem w) (with_heap (w_mem w) (heap (w_mem w) ++ [new_obj (md_of sc m)])) (length (heap (w_mem w)))). unfold since. rewrite newb_alloc. apply Nat.eqb_refl.
  - exact (r_new _ _ _ _ _ (rel_nil sc W UD UC UN) m).
  - apply target_new. exact W.
Qed.
Lemma clone_follows pc w d i : inv pc w d -> follows pc w d (OClone i).
Proof.
  intros I. unfold follows. cbn [HeapHist.hstep HeapHist.pstep]. cbv zeta. destruct (nth_error (w_msgs w) i) as [[m a]|] eqn:Ei.
  2:{ rewrite (held_none _ _ _ _ I Ei). cbn. eauto using others_refl. }
  destruct (held_facts pc w d i m a I Ei) as (y & t & Ed & F & T & [R N] & O & Hx). rewrite Ed. cbn [fst snd].
  destruct (held_base _ _ _ _ I Hx) as [pt Bs].
  pose proof (levels_ok _ _ _ _ _ _ I O) as L.
  destruct (clone_sim sc W UCL UCM grow pc pt pr (fun m' x' X => proj1 X) uclone UO (levels (w_mem w)) (S (vdepth y)) [] m (mine pc a) (w_mem w) t (HPtr a) y F Bs O R) as (s' & x & t' & E & G & O' & R'); [lia|lia|right; apply T|].
  pose proof (clone_target sc W UCL UCM m y F T) as T'.
  pose proof (clone_no_nil sc W UCL (S (vdepth y)) [] m y ltac:(lia) F (proj1 T) N) as N'.
  change (clone_msg sc _ (S (vdepth y)) [] m y) with (CloneVT sc m y) in R', N'.
  assert (exists r, x = HPtr r) as [r ->].
  { destruct T' as [X _]. destruct R' as [|? ? ? F0|? ? ? F0 M']; [inversion X|congruence|]. destruct M'. cbn in O'. destruct O' as (_ & r & _ & _ & _ & _ & -> & _). eauto. }
  rewrite E. destruct (none_base _ _ _ I) as [pt' Bn].
  eexists _, (pc' pc r w s'). split; [reflexivity|]. split; [|apply (others_goes pc pt' none r w d); auto; [intros b []|now apply (fresh_not_held pc pt' w d s' r t')]].
  eapply fresh_step; eauto. now split.
Qed.
Lemma step_follows pc w d o : inv pc w d -> op_ok sc o -> follows pc w d o.
Proof.
  intros I K. destruct o; cbn [op_ok] in K.
  - now apply (get_follows pc).
  - now apply (new_follows pc).
  - destruct K. now apply (buffer_follows pc).
  - destruct K. now apply (write_follows pc).
  - now apply (unmarshal_follows pc).
  - now apply (set_follows pc).
  - now apply (reset_follows pc).
  - now apply (return_follows pc).
  - now apply (forget_follows pc).
  - now apply (lose_follows pc).
  - now apply (clone_follows pc).
Qed.
Lemma run_follows os : forall pc w d, inv pc w d -> Forall (op_ok sc) os ->
  exists w' pc', hrun sc grow uunm uext uclone os w = Some (fst (prun sc os d), w') /\ inv pc' w' (snd (prun sc os d)).
Proof.
  induction os as [|o os IH]; intros pc w d I K; [exists w, pc; auto|]. inversion K as [|? ? K1 K2]; subst.
  destruct (step_follows pc w d o I K1) as (w1 & pc1 & E & I1 & _). cbn [hrun prun]. rewrite E. destruct (pstep o d) as [e d1]. cbn [fst snd] in *.
  destruct (IH pc1 w1 d1 I1 K2) as (w2 & pc2 & E2 & I2). rewrite E2. destruct (prun sc os d1) as [es d2]. cbn [fst snd] in *. eauto.
Qed.
Lemma inv_start ps : inv (fun _ => 0%nat) (World (mkMem [] [] ps) [] []) (Desk [] []).
Proof. constructor; cbn; [intros b H; now destruct H|constructor|intros m a []|constructor|constructor|intros a []|constructor|constructor]. Qed.
End Hist.
