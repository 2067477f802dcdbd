(** UnmarshalVT and ReturnToVTPool touch what they reach from the receiver and the
    pools only. *)
From Coq Require Import ZArith List Bool Lia.
From Verif Require Import Base BaseFacts Schema Value Helpers Typing Heap HeapSpec HeapFacts HeapDec HeapDecSpec TargetFacts.
From Verif Require Unmarshal.
Import ListNotations.
Open Scope Z_scope.

Section Confined.
Variable sc : schema.
Variables B S V : nat -> Prop.
Variable h0 : list obj.
Hypothesis SN : forall a, (length h0 <= a)%nat -> S a.
Hypothesis BS : buffers B S h0.
Record good (s : mem) : Prop := {
  good_conf : confined B S V h0 (heap s);
  good_free : forall m a, In (m, a) (free s) -> S a }.
Definition mine (v : hval) : Prop := (forall a, In a (addrs v) -> S a \/ B a) /\ (forall a, In a (views v) -> V a).
Definition strict (v : hval) : Prop := forall a, In a (addrs v) -> S a.
Definition mine_obj (o : obj) : Prop := kept B S V o.
Definition sure {A} (x : D A) (Q : A -> Prop) : Prop :=
  forall s, good s -> match x s with Done a s' => good s' /\ Q a | Fail _ s' | Crash s' => good s' | Stuck => True end.
Definition msafe {A} (x : M A) (Q : A -> Prop) : Prop :=
  forall s a s', good s -> x s = Some (a, s') -> good s' /\ Q a.

Lemma sure_ret {A} (a : A) (Q : A -> Prop) : Q a -> sure (dret a) Q.
Proof. intros H s G. cbn. auto. Qed.
Lemma sure_err {A} e (Q : A -> Prop) : sure (derr e) Q. Proof. intros s G. exact G. Qed.
Lemma sure_crash {A} (Q : A -> Prop) : sure dcrash Q. Proof. intros s G. exact G. Qed.
Lemma sure_stuck {A} (Q : A -> Prop) : sure dstuck Q. Proof. intros s G. exact I. Qed.
Lemma sure_bind {A A'} (x : D A) (k : A -> D A') Q R : sure x Q -> (forall a, Q a -> sure (k a) R) -> sure (dbind x k) R.
Proof.
  intros X K s G. specialize (X s G). unfold dbind. destruct (x s) as [a s'|e s'|s'|]; auto. destruct X as [G' Qa]. now apply K.
Qed.
Lemma sure_calc {A} (r : res unit A) : sure (calc r) (fun _ => True).
Proof. intros s G. unfold calc. destruct r; auto. Qed.
Lemma sure_acc {A} (x : M A) Q : msafe x Q -> sure (acc x) Q.
Proof. intros H s G. unfold acc. destruct (x s) as [[a s']|] eqn:E; [|exact I]. eapply H; eauto. Qed.
Lemma sure_weak {A} (x : D A) (Q R : A -> Prop) : sure x Q -> (forall a, Q a -> R a) -> sure x R.
Proof. intros X H s G. specialize (X s G). destruct (x s); auto. destruct X; auto. Qed.

Lemma ms_ret {A} (a : A) (Q : A -> Prop) : Q a -> msafe (ret a) Q.
Proof. intros H s a' s' G E. injection E as <- <-. auto. Qed.
Lemma ms_fail {A} (Q : A -> Prop) : msafe fail Q. Proof. intros s a s' G E. discriminate. Qed.
Lemma ms_bind {A A'} (x : M A) (k : A -> M A') Q R : msafe x Q -> (forall a, Q a -> msafe (k a) R) -> msafe (bind x k) R.
Proof. intros X K s b s' I E. unfold bind in E. destruct (x s) as [[a s1]|] eqn:E1; [|discriminate]. destruct (X s a s1 I E1) as [I1 Qa]. eapply K; eauto. Qed.
Lemma not_msg o : (forall x, In x (vars o) -> mine x) -> (forall l u, o <> OMsg l u) -> mine_obj o.
Proof. intros H N. split; [exact H|]. intros l u b E. destruct (N l u E). Qed.
Lemma b_bytes s a o : good s -> B a -> nth_error (heap s) a = Some o -> exists bs, o = OBytes bs.
Proof. intros [(_ & _ & G) _] Ba N. destruct (BS a Ba) as (Sa & bs & E). rewrite (G a Sa), E in N. injection N as <-. eauto. Qed.
Lemma ms_load a : S a \/ B a -> msafe (load a) (fun o => mine_obj o /\ (S a \/ exists bs, o = OBytes bs)).
Proof.
  intros SB s o s' G E. unfold load in E. destruct (nth_error (heap s) a) as [o'|] eqn:N; [|discriminate]. injection E as <- <-. split; auto.
  destruct SB as [Sa|Ba].
  - split; auto. destruct G as [(_ & C & _) _]. exact (C a o' Sa N).
  - destruct (b_bytes _ _ _ G Ba N) as [bs ->]. split; eauto. apply not_msg; [intros x []|discriminate].
Qed.
Lemma ms_load_any a : msafe (load a) (fun _ => True).
Proof. intros s o s' G E. unfold load in E. destruct (nth_error (heap s) a) as [o'|] eqn:N; [|discriminate]. injection E as <- <-. auto. Qed.
Lemma ms_store a o : S a -> mine_obj o -> msafe (store a o) (fun _ => True).
Proof.
  intros Sa Mo s u s' G E. unfold store in E. destruct (Nat.ltb_spec a (length (heap s))) as [L|L]; [|discriminate]. injection E as <- <-. split; auto.
  destruct G as [(G1 & G2 & G3) G4]. split; [split; [|split]|exact G4]; cbn [heap].
  - now rewrite list_set_length.
  - intros b o' Sb Eb. destruct (Nat.eq_dec a b) as [->|N].
    + rewrite nth_error_set_eq in Eb by auto. injection Eb as <-. exact Mo.
    + rewrite nth_error_set_neq in Eb by auto. exact (G2 b o' Sb Eb).
  - intros b Nb. rewrite nth_error_set_neq by congruence. auto.
Qed.
Lemma ms_alloc o : mine_obj o -> msafe (alloc o) S.
Proof.
  intros Mo s a s' G E. unfold alloc in E. injection E as <- <-. destruct G as [(G1 & G2 & G3) G4].
  split; [|apply SN; exact G1]. split; [split; [|split]|exact G4]; cbn [heap].
  - rewrite app_length. lia.
  - intros b o' Sb Eb. destruct (Nat.lt_ge_cases b (length (heap s))) as [L|L].
    + rewrite nth_error_app1 in Eb by auto. eauto.
    + rewrite nth_error_app2 in Eb by auto. destruct (b - length (heap s))%nat; cbn in Eb; [injection Eb as <-; exact Mo|destruct n; discriminate].
  - intros b Nb. destruct (Nat.lt_ge_cases b (length (heap s))) as [L|L].
    + rewrite nth_error_app1 by auto. auto.
    + destruct Nb. apply SN. lia.
Qed.
Lemma mine_nil : mine HNil. Proof. split; intros a []. Qed.
Lemma mine_int z : mine (HInt z). Proof. split; intros a []. Qed.
Lemma mine_str s : mine (HStr s). Proof. split; intros a []. Qed.
Lemma mine_ptr a : S a -> mine (HPtr a). Proof. intros H. split; [intros b [<-|[]]; auto|intros b []]. Qed.
Lemma mine_map a : S a -> mine (HMap a). Proof. intros H. split; [intros b [<-|[]]; auto|intros b []]. Qed.
Lemma mine_slice a off len cap : S a -> mine (HSlice a off len cap). Proof. intros H. split; [intros b [<-|[]]; auto|intros b []]. Qed.
Lemma mine_ptr_inv a : mine (HPtr a) -> S a \/ B a. Proof. intros [H _]. apply H. now left. Qed.
Lemma mine_map_inv a : mine (HMap a) -> S a \/ B a. Proof. intros [H _]. apply H. now left. Qed.
Lemma mine_slice_inv a off len cap : mine (HSlice a off len cap) -> S a \/ B a. Proof. intros [H _]. apply H. now left. Qed.
Lemma mine_reslice a off len cap off' len' cap' : mine (HSlice a off len cap) -> mine (HSlice a off' len' cap').
Proof. intros [H _]. split; [exact H|intros b []]. Qed.
Hint Resolve mine_nil mine_int mine_str mine_ptr mine_map mine_slice mine_ptr_inv mine_map_inv mine_slice_inv : core.
Lemma mine_nth i l : (forall x, In x l -> mine x) -> mine (nth i l HNil).
Proof. intros H. destruct (nth_in_or_default i l HNil) as [I| ->]; auto. Qed.
Lemma mine_bytes b : mine_obj (OBytes b). Proof. apply not_msg; [intros x []|discriminate]. Qed.
Lemma mine_cell x : mine x -> mine_obj (OCell x). Proof. intros H. apply not_msg; [intros y [<-|[]]; auto|discriminate]. Qed.
Lemma mine_wrap n x : mine x -> mine_obj (OWrap n x). Proof. intros H. apply not_msg; [intros y [<-|[]]; auto|discriminate]. Qed.
Lemma mine_arr l : (forall x, In x l -> mine x) -> mine_obj (OArr l). Proof. intros H. apply not_msg; [exact H|discriminate]. Qed.
Lemma mine_omap l : (forall x, In x (vars (OMap l)) -> mine x) -> mine_obj (OMap l). Proof. intros H. apply not_msg; [exact H|discriminate]. Qed.
Lemma mine_vars o x : mine_obj o -> In x (vars o) -> mine x. Proof. intros [H _]. apply H. Qed.
Hint Resolve mine_bytes mine_cell mine_wrap mine_reslice : core.
Lemma mine_new md : mine_obj (new_obj md).
Proof.
  split; [|intros l u b E; injection E as <- <-; intros []]. change (forall x, In x (vars (new_obj md)) -> mine x).
  intros x [<-|Hx]; [auto|]. apply in_map_iff in Hx as (i & <- & _). unfold hzero_slot. destruct (find _ _) as [f|]; auto.
  unfold hzero_of. destruct (f_ty f) as [[] k|]; auto. destruct (classify k); auto.
Qed.

Lemma ms_get_slot a i : S a \/ B a -> msafe (get_slot a i) mine.
Proof. intros Sa. eapply ms_bind; [now apply ms_load|]. intros [] [H _]; try apply ms_fail. apply ms_ret. apply mine_nth. intros x Hx. apply (mine_vars _ _ H). now right. Qed.
Lemma ms_get_unk a : S a \/ B a -> msafe (get_unk a) (fun u => mine u /\ strict u).
Proof.
  intros Sa. eapply ms_bind; [now apply ms_load|]. intros [] [H _]; try apply ms_fail. apply ms_ret. split; [apply (mine_vars _ _ H); now left|].
  intros b Hb. destruct H as [_ H]. eapply H; eauto.
Qed.
Ltac ours H := destruct H as [H [|[? ?]]]; [|discriminate].
Lemma ms_set_slot a i x : S a \/ B a -> mine x -> msafe (set_slot a i x) (fun _ => True).
Proof.
  intros Sa Mx. eapply ms_bind; [now apply ms_load|]. intros [| | | | |l u] H; try apply ms_fail. ours H. apply ms_store; auto. split.
  - intros y [<-|Hy]; [apply (mine_vars _ _ H); now left|]. apply in_list_set in Hy as [->|Hy]; auto. apply (mine_vars _ _ H). now right.
  - intros l' u' b E. injection E as <- <-. destruct H as [_ H]. now apply (H l).
Qed.
Lemma ms_set_unk a x : S a \/ B a -> mine x -> strict x -> msafe (set_unk a x) (fun _ => True).
Proof.
  intros Sa Mx Sx. eapply ms_bind; [now apply ms_load|]. intros [| | | | |l u] H; try apply ms_fail. ours H. apply ms_store; auto. split.
  - intros y [<-|Hy]; auto. apply (mine_vars _ _ H). now right.
  - intros l' u' b E. injection E as <- <-. apply Sx.
Qed.
Lemma ms_set_elem a i x : S a \/ B a -> mine x -> msafe (set_elem a i x) (fun _ => True).
Proof.
  intros Sa Mx. eapply ms_bind; [now apply ms_load|]. intros [| |l| | |] H; try apply ms_fail. ours H. apply ms_store; auto.
  apply mine_arr. intros y Hy. apply in_list_set in Hy as [->|Hy]; auto. apply (mine_vars _ _ H Hy).
Qed.
Lemma ms_bytes_of v : msafe (bytes_of v) (fun _ => True).
Proof.
  destruct v; try apply ms_fail; [now apply ms_ret|]. eapply ms_bind; [apply ms_load_any|]. intros [] H; try apply ms_fail.
  destruct (_ <=? _)%nat; [now apply ms_ret|apply ms_fail].
Qed.
Lemma in_firstn {A} n (l : list A) x : In x (firstn n l) -> In x l.
Proof. revert l. induction n as [|n IH]; intros [|y l] H; cbn in *; try tauto. destruct H; auto. Qed.
Lemma in_skipn {A} n (l : list A) x : In x (skipn n l) -> In x l.
Proof. revert l. induction n as [|n IH]; intros [|y l] H; cbn in *; auto. Qed.
Lemma in_part {A} off len (l : list A) x : In x (firstn len (skipn off l)) -> In x l.
Proof. intros H. now apply in_firstn, in_skipn in H. Qed.
Lemma ms_elems_of v : mine v -> msafe (elems_of v) (fun l => forall x, In x l -> mine x).
Proof.
  intros Mv. destruct v; try apply ms_fail. eapply ms_bind; [apply ms_load; eauto|]. intros [] [H _]; try apply ms_fail.
  destruct (_ <=? _)%nat; [|apply ms_fail]. apply ms_ret. intros x Hx. apply in_part in Hx. apply (mine_vars _ _ H Hx).
Qed.
Lemma ms_put_bytes a off bs : S a -> msafe (put_bytes a off bs) (fun _ => True).
Proof. intros Sa. eapply ms_bind; [apply ms_load_any|]. intros [] H; try apply ms_fail. destruct (_ <=? _)%nat; [|apply ms_fail]. apply ms_store; auto. Qed.
Lemma ms_key_of v : msafe (key_of v) (fun _ => True).
Proof. destruct v; try apply ms_fail; try (now apply ms_ret). eapply ms_bind; [apply ms_load_any|]. intros [] H; try apply ms_fail. destruct (_ <=? _)%nat; [now apply ms_ret|apply ms_fail]. Qed.
Lemma ms_entries_set l kt k x : mine_obj (OMap l) -> mine k -> mine x -> msafe (entries_set l kt k x) (fun l' => mine_obj (OMap l')).
Proof.
  intros Ml Mk Mx. induction l as [|[k' x'] l IH]; cbn [entries_set].
  - apply ms_ret. apply mine_omap. intros y Hy. cbn in Hy. intuition (subst; auto).
  - assert (mine k' /\ mine x' /\ mine_obj (OMap l)) as (M1 & M2 & M3).
    { split; [apply (mine_vars _ _ Ml); cbn; auto|]. split; [apply (mine_vars _ _ Ml); cbn; rewrite in_app_iff; cbn; auto|].
      apply mine_omap. intros y Hy. apply (mine_vars _ _ Ml). cbn in *. rewrite in_app_iff in *. cbn. tauto. }
    assert (forall k x l, mine k -> mine x -> mine_obj (OMap l) -> mine_obj (OMap ((k, x) :: l))) as CC.
    { intros k1 x1 l1 A1 A2 A3. apply mine_omap. intros y Hy. cbn in Hy. rewrite in_app_iff in Hy. cbn in Hy.
      destruct Hy as [<-|[Hy|[<-|Hy]]]; auto; apply (mine_vars _ _ A3); cbn; rewrite in_app_iff; auto. }
    eapply ms_bind; [apply ms_key_of|]. intros kt' _. destruct (Unmarshal.key_eqb kt kt'); [apply ms_ret; auto|].
    eapply ms_bind; [apply IH; auto|]. intros r Hr. apply ms_ret; auto.
Qed.
Lemma ms_map_assign v k x : mine v -> mine k -> mine x -> msafe (map_assign v k x) (fun _ => True).
Proof.
  intros Mv Mk Mx. destruct v; try apply ms_fail. eapply ms_bind; [apply ms_load; eauto|]. intros [] H; try apply ms_fail. ours H.
  eapply ms_bind; [apply ms_key_of|]. intros kt _. eapply ms_bind; [apply ms_entries_set; auto|]. intros l' Hl. apply ms_store; auto.
Qed.
Lemma ms_Alloc m : msafe (Alloc sc m) S.
Proof.
  unfold Alloc. destruct (md_pool (md_of sc m)); [|apply ms_alloc, mine_new].
  intros s a s' G E. destruct (picks s) as [|i ps]; [eapply (ms_alloc _ (mine_new _)); eauto|].
  assert (forall ps, good (mkMem (heap s) (free s) ps)) as G' by (intros; destruct G; split; auto).
  destruct (nth_error (free s) i) as [[m' a']|] eqn:N; [|eapply (ms_alloc _ (mine_new _)); [|exact E]; auto].
  destruct (Nat.eqb m' m); [|eapply (ms_alloc _ (mine_new _)); [|exact E]; auto].
  injection E as <- <-. split; [|eapply (good_free s); eauto; eapply nth_error_In; eauto].
  destruct G as [G1 G2]. split; auto. cbn. intros m2 a2 H. apply (G2 m2). rewrite in_app_iff in H.
  destruct H as [H|H]; [now apply in_firstn in H|now apply (in_skipn (Datatypes.S i))].
Qed.

Lemma sure_data p : sure (data p) (fun _ => True).
Proof. apply sure_acc, ms_bytes_of. Qed.
Lemma sure_get v i : mine v -> sure (dget v i) mine.
Proof. intros Mv. destruct v; try apply sure_stuck; [apply sure_crash|]. apply sure_acc, ms_get_slot. auto. Qed.
Lemma sure_set v i x : mine v -> mine x -> sure (dset v i x) (fun _ => True).
Proof. intros Mv Mx. destruct v; try apply sure_stuck; [apply sure_crash|]. apply sure_acc, ms_set_slot; auto. Qed.
Variable grow : nat -> nat.
Lemma mine_repeat n x : In x (repeat HNil n) -> mine x. Proof. intros H. apply repeat_spec in H as ->. auto. Qed.
Lemma sure_append v x : mine v -> mine x -> sure (happend grow v x) mine.
Proof.
  intros Mv Mx. destruct v; try apply sure_stuck; cbn [happend].
  - eapply sure_bind; [apply sure_acc, ms_alloc|intros; apply sure_ret; auto]. apply mine_arr. intros y [<-|Hy]; auto. eapply mine_repeat; eauto.
  - destruct (_ <? _)%nat.
    + eapply sure_bind; [apply sure_acc, ms_set_elem; eauto|intros; apply sure_ret; eauto].
    + eapply sure_bind; [apply sure_acc, ms_elems_of; auto|]. intros es He. eapply sure_bind; [apply sure_acc, ms_alloc|intros; apply sure_ret; auto].
      apply mine_arr. intros y Hy. cbn in Hy. rewrite in_app_iff in Hy. destruct Hy as [Hy|[<-|Hy]]; auto. eapply mine_repeat; eauto.
Qed.
Lemma sure_append_bytes v bs : mine v -> strict v -> sure (happend_bytes grow v bs) (fun x => mine x /\ strict x).
Proof.
  assert (forall a off len cap, S a -> strict (HSlice a off len cap)) as SS by (intros a off len cap Sa b [<-|[]]; auto).
  intros Mv Sv. destruct v; try apply sure_stuck; cbn [happend_bytes].
  - destruct bs; [apply sure_ret; auto|]. eapply sure_bind; [apply sure_acc, ms_alloc; auto|intros; apply sure_ret; auto].
  - assert (S a) as Sa by (apply Sv; now left). destruct (_ <=? _)%nat.
    + eapply sure_bind; [apply sure_acc, ms_put_bytes; eauto|intros; apply sure_ret; eauto].
    + eapply sure_bind; [apply sure_acc, ms_bytes_of|]. intros b _. eapply sure_bind; [apply sure_acc, ms_alloc; auto|intros; apply sure_ret; auto].
Qed.
Lemma sure_cut0 v : mine v -> sure (cut0 v) mine.
Proof. intros Mv. destruct v; try apply sure_stuck; apply sure_ret; eauto. Qed.
Lemma sure_make_copy bs : sure (make_copy bs) mine.
Proof. eapply sure_bind; [apply sure_acc, ms_alloc; auto|intros; apply sure_ret; auto]. Qed.
Lemma sure_elem v i : mine v -> sure (elem v i) mine.
Proof.
  intros Mv. destruct v; try apply sure_stuck; [apply sure_crash|]. cbn [elem]. destruct (_ <? _)%nat; [|apply sure_crash].
  apply sure_acc. eapply ms_bind; [apply ms_load; eauto|]. intros [] [H _]; try apply ms_fail. apply ms_ret. apply mine_nth. intros x Hx. apply (mine_vars _ _ H Hx).
Qed.

Section Level.
Variable unsafe : bool.
Variables uunm uext : nat -> nat -> list Z -> list obj -> bool * list obj.
Hypothesis UC : up_confined uunm.
Hypothesis XC : up_confined uext.
Variable rec : nat -> input -> hval -> D unit.
Hypothesis SAFE : unsafe = false -> forall a, ~ B a.
Definition fits (p : input) : Prop := unsafe = true -> B (in_arr p) /\ V (in_arr p).
Hypothesis REC : forall m p v, fits p -> mine v -> sure (rec m p v) (fun _ => True).

Lemma sure_up f m bs v : up_confined f -> mine v -> sure (call_up f m bs v) (fun _ => True).
Proof.
  intros F Mv. destruct v; try apply sure_stuck; [apply sure_crash|]. cbn [call_up]. eapply sure_bind; [apply sure_acc, ms_load; eauto|].
  intros [] H; try apply sure_stuck. ours H. intros s0 G. destruct G as [(G1 & G2 & G3) G4].
  destruct (F m a bs (heap s0) B S V) as (C1 & C2 & C3); auto.
  { intros b L. apply SN. eapply Nat.le_trans; eassumption. }
  { intros b Hb. destruct (BS b Hb) as (Nb & b' & E). split; auto. exists b'. rewrite G3; auto. }
  destruct (f m a bs (heap s0)) as [ok h]. cbn [snd] in *.
  assert (good (mkMem h (free s0) (picks s0))). { split; auto. split; [cbn [heap]; eapply Nat.le_trans; eassumption|]. split; auto. cbn. intros b Nb. rewrite C3 by auto. auto. }
  destruct ok; auto.
Qed.
Lemma sure_message m p v : fits p -> mine v -> sure (hdecodeMessage sc uunm rec m p v) (fun _ => True).
Proof.
  intros Fp Mv. unfold hdecodeMessage. destruct (md_foreign _); [|now apply REC].
  eapply sure_bind; [apply sure_data|]. intros bs _. now apply sure_up.
Qed.
Lemma sure_string p i j : fits p -> sure (hstring unsafe p i j) mine.
Proof.
  intros Fp. unfold hstring. unfold fits in Fp. destruct unsafe.
  - apply sure_ret. destruct (j <=? i); auto. split; [intros b []|intros b [<-|[]]; now apply Fp].
  - eapply sure_bind; [apply sure_data|]. intros bs _. apply sure_ret; auto.
Qed.
Lemma sure_bytes p i j : fits p -> sure (hbytes unsafe p i j) mine.
Proof.
  intros Fp. unfold hbytes. unfold fits in Fp. destruct unsafe.
  - apply sure_ret. split; [intros b [<-|[]]; right; now apply Fp|intros b []].
  - eapply sure_bind; [apply sure_data|]. intros bs _. apply sure_make_copy.
Qed.
Lemma sure_store f lbl x v : mine v -> mine x -> sure (hstore grow f lbl x v) (fun _ => True).
Proof.
  intros Mv Mx. destruct lbl; cbn [hstore].
  - now apply sure_set.
  - eapply sure_bind; [apply sure_acc, ms_alloc|]. { auto. } intros c Sc. apply sure_set; auto.
  - eapply sure_bind; [apply sure_acc, ms_alloc|]. { auto. } intros c Sc. apply sure_set; auto.
  - eapply sure_bind; [now apply sure_get|]. intros old Mo. eapply sure_bind; [now apply sure_append|]. intros l Ml. now apply sure_set.
  - eapply sure_bind; [apply sure_acc, ms_alloc|]. { auto. } intros c Sc. apply sure_set; auto.
Qed.
Lemma sure_bytes_item f lbl p i j v : fits p -> mine v -> sure (bytes_item unsafe grow f lbl p i j v) (fun _ => True).
Proof.
  intros Fp Mv.
  assert (sure (if unsafe then dec! x := hbytes unsafe p i j in dset v (f_slot f) x
      else dec! old := dget v (f_slot f) in dec! e := cut0 old in dec! bs := data (sub p i j) in
        dec! x := happend_bytes grow e bs in
        match x with HNil => dec! a := acc (alloc (OBytes [])) in dset v (f_slot f) (HSlice a 0 0 0) | _ => dset v (f_slot f) x end) (fun _ => True)) as R.
  { match goal with |- sure (if unsafe then ?X else ?Y) _ => assert (sure X (fun _ => True) /\ (unsafe = false -> sure Y (fun _ => True))) as [X1 Y1] end;
      [|destruct (Bool.bool_dec unsafe true) as [U|U]; [|apply Bool.not_true_is_false in U]; [destruct unsafe; [exact X1|discriminate]|specialize (Y1 U); destruct unsafe; [discriminate|exact Y1]]].
    split; [eapply sure_bind; [now apply sure_bytes|intros; now apply sure_set]|]. intros U.
    eapply sure_bind; [now apply sure_get|]. intros old Mo. eapply sure_bind; [now apply sure_cut0|]. intros e Me.
    assert (strict e) as Se by (intros a Ha; destruct Me as [Me _]; destruct (Me a Ha) as [|Ba]; auto; destruct (SAFE U a Ba)).
    eapply sure_bind; [apply sure_data|]. intros bs _. eapply sure_bind; [now apply sure_append_bytes|]. intros x [Mx _].
    destruct x; try (now apply sure_set). eapply sure_bind; [apply sure_acc, ms_alloc; auto|]. intros a Sa. apply sure_set; auto. }
  destruct lbl; cbn [bytes_item]; auto; (eapply sure_bind; [now apply sure_bytes|intros; now apply sure_store]).
Qed.
Lemma sure_mapField k cur p i : fits p -> mine cur -> sure (hmapField sc unsafe uunm rec k cur p i) (fun r => mine (fst r)).
Proof.
  intros Fp Mc. unfold hmapField. eapply sure_bind; [apply sure_data|]. intros d _.
  destruct (classify k); try (eapply sure_bind; [apply sure_calc|]; intros [z i'] _; now apply sure_ret).
  - eapply sure_bind; [apply sure_calc|]. intros [i' j] _. eapply sure_bind; [now apply sure_string|]. intros. now apply sure_ret.
  - eapply sure_bind; [apply sure_calc|]. intros [i' j] _. eapply sure_bind; [now apply sure_bytes|]. intros. now apply sure_ret.
  - eapply sure_bind; [apply sure_calc|]. intros [i' j] _. eapply sure_bind; [apply sure_acc, ms_alloc, mine_new|]. intros a Sa.
    eapply sure_bind; [apply sure_message; auto|]. intros. apply sure_ret. cbn. auto.
  - now apply sure_ret.
Qed.
Lemma sure_map_loop fuel kk vk p post : fits p -> forall i key value, mine key -> mine value ->
  sure (hmap_loop sc unsafe uunm rec fuel kk vk p i post key value) (fun r => mine (fst r) /\ mine (snd r)).
Proof.
  intros Fp. induction fuel as [|fuel IH]; intros i key value Mk Mv; cbn [hmap_loop]; [apply sure_stuck|].
  destruct (i <? post); [|now apply sure_ret]. eapply sure_bind; [apply sure_data|]. intros d _. eapply sure_bind; [apply sure_calc|]. intros [wire i'] _.
  destruct (_ =? 1); [eapply sure_bind; [now apply sure_mapField|]; intros [k' i2] Mk'; now apply IH|].
  destruct (_ =? 2); [eapply sure_bind; [now apply sure_mapField|]; intros [k' i2] Mk'; now apply IH|].
  eapply sure_bind; [apply sure_calc|]. intros rest _. eapply sure_bind; [apply sure_calc|]. intros skippy _.
  destruct (_ || _); [apply sure_err|]. destruct (post <? _); [apply sure_err|]. now apply IH.
Qed.
Lemma mine_zero k : mine (hmap_zero k). Proof. unfold hmap_zero. destruct (classify k); auto. Qed.
Lemma sure_map_item f kk vk p i v : fits p -> mine v -> sure (hmap_item sc unsafe uunm rec f kk vk p i v) (fun _ => True).
Proof.
  intros Fp Mv. unfold hmap_item. eapply sure_bind; [apply sure_data|]. intros d _. eapply sure_bind; [apply sure_calc|]. intros [i' post] _.
  eapply sure_bind; [now apply sure_get|]. intros old Mo. eapply sure_bind with (Q := fun _ => True).
  { destruct old; try (now apply sure_ret). eapply sure_bind; [apply sure_acc, ms_alloc|]. { apply mine_omap. intros y []. } intros a Sa. apply sure_set; auto. }
  intros _ _. eapply sure_bind; [apply sure_map_loop; auto using mine_zero|]. intros [key value] [Mk Mx].
  eapply sure_bind; [now apply sure_get|]. intros l Ml. eapply sure_bind; [apply sure_acc, ms_map_assign; auto|]. intros. now apply sure_ret.
Qed.
Lemma sure_list_grow md f m v : mine v -> sure (hlist_grow sc grow md f m v) (fun _ => True).
Proof.
  intros Mv. unfold hlist_grow. eapply sure_bind; [now apply sure_get|]. intros old Mo. destruct (_ && _).
  - destruct old; try apply sure_stuck. eapply sure_bind; [apply sure_set; eauto|]. intros _ _.
    eapply sure_bind; [apply sure_elem; eauto|]. intros x Mx. destruct x; try (now apply sure_ret);
    (eapply sure_bind; [apply sure_acc, ms_alloc, mine_new|]; intros b Sb; apply sure_acc, ms_set_elem; eauto).
  - eapply sure_bind; [apply sure_acc, ms_alloc, mine_new|]. intros b Sb. eapply sure_bind; [apply sure_append; auto|]. intros l Ml. now apply sure_set.
Qed.
Lemma sure_fresh md m : sure (hfresh sc md m) S.
Proof. unfold hfresh. destruct (_ && _); apply sure_acc; [apply ms_Alloc|apply ms_alloc, mine_new]. Qed.
Lemma sure_message_item md f lbl m p i v : fits p -> mine v -> sure (hmessage_item sc grow uunm rec md f lbl m p i v) (fun _ => True).
Proof.
  intros Fp Mv. unfold hmessage_item. eapply sure_bind; [apply sure_data|]. intros d _. eapply sure_bind; [apply sure_calc|]. intros [i' post] _.
  assert (fits (sub p i' post)) as Fq by exact Fp.
  assert (sure (dec! old := dget v (f_slot f) in
      dec! _ := match old with HNil => dec! a := hfresh sc md m in dset v (f_slot f) (HPtr a) | _ => dret tt end in
      dec! x := dget v (f_slot f) in dec! _ := hdecodeMessage sc uunm rec m (sub p i' post) x in dret post) (fun _ => True)) as R.
  { eapply sure_bind; [now apply sure_get|]. intros old Mo. eapply sure_bind with (Q := fun _ => True).
    { destruct old; try (now apply sure_ret). eapply sure_bind; [apply sure_fresh|]. intros a Sa. apply sure_set; auto. }
    intros _ _. eapply sure_bind; [now apply sure_get|]. intros x Mx. eapply sure_bind; [now apply sure_message|]. intros. now apply sure_ret. }
  destruct lbl; auto; clear R.
  - eapply sure_bind; [now apply sure_list_grow|]. intros _ _. eapply sure_bind; [now apply sure_get|]. intros l Ml.
    eapply sure_bind; [now apply sure_elem|]. intros x Mx. eapply sure_bind; [now apply sure_message|]. intros. now apply sure_ret.
  - eapply sure_bind; [now apply sure_get|]. intros old Mo.
    eapply sure_bind with (Q := fun r => match r with Some x => mine x | None => True end).
    { destruct old; try apply sure_stuck; [now apply sure_ret|]. apply sure_acc. eapply ms_bind; [apply ms_load; eauto|]. intros [] [H _]; try apply ms_fail.
      apply ms_ret. destruct (_ =? _); auto. apply (mine_vars _ _ H). now left. }
    intros [x|] Mx.
    + eapply sure_bind; [now apply sure_message|]. intros. now apply sure_ret.
    + eapply sure_bind; [apply sure_fresh|]. intros a Sa. eapply sure_bind; [apply sure_message; auto|]. intros _ _.
      eapply sure_bind; [apply sure_acc, ms_alloc|]. { auto. } intros w Sw. eapply sure_bind; [apply sure_set; auto|]. intros. now apply sure_ret.
Qed.
Lemma sure_group_loop fuel f m wire p gs v : fits p -> mine v -> forall i, sure (hgroup_loop sc uunm rec fuel f m wire p gs i v) (fun _ => True).
Proof.
  intros Fp Mv. induction fuel as [|fuel IH]; intros i; cbn [hgroup_loop]; [apply sure_stuck|].
  eapply sure_bind; [apply sure_data|]. intros d _. eapply sure_bind; [apply sure_calc|]. intros [gw i'] _. destruct (_ =? 4).
  - eapply sure_bind; [apply sure_calc|]. intros _ _. eapply sure_bind; [now apply sure_get|]. intros x Mx. eapply sure_bind; [apply sure_message; auto|]. intros. now apply sure_ret.
  - eapply sure_bind; [apply sure_calc|]. intros rest _. eapply sure_bind; [apply sure_calc|]. intros skippy _. destruct (_ || _); [apply sure_err|apply IH].
Qed.
Lemma sure_fieldItem md f lbl k wire p i v : fits p -> mine v -> sure (hfieldItem sc unsafe grow uunm rec md f lbl k wire p i v) (fun _ => True).
Proof.
  intros Fp Mv. unfold hfieldItem.
  assert (forall d, sure (hnumber_start f lbl k d i v) (fun _ => True)) as Sn.
  { intros d. unfold hnumber_start. destruct (Unmarshal.in_place lbl k); [apply sure_set; auto|now apply sure_ret]. }
  destruct (classify k); try (eapply sure_bind; [apply sure_data|]; intros d _; eapply sure_bind; [apply Sn|]; intros _ _; eapply sure_bind; [apply sure_calc|]; intros [z i'] _;
    eapply sure_bind; [now apply sure_store|]; intros; now apply sure_ret).
  - eapply sure_bind; [apply sure_data|]. intros d _. eapply sure_bind; [apply sure_calc|]. intros [i' post] _. eapply sure_bind; [now apply sure_string|]. intros x Mx.
    eapply sure_bind; [now apply sure_store|]. intros. now apply sure_ret.
  - eapply sure_bind; [apply sure_data|]. intros d _. eapply sure_bind; [apply sure_calc|]. intros [i' post] _. eapply sure_bind; [now apply sure_bytes_item|]. intros. now apply sure_ret.
  - now apply sure_message_item.
  - now apply sure_group_loop.
Qed.
Lemma sure_packed_loop fuel md f lbl k wire p post v : fits p -> mine v -> forall i, sure (hpacked_loop sc unsafe grow uunm rec fuel md f lbl k wire p i post v) (fun _ => True).
Proof.
  intros Fp Mv. induction fuel as [|fuel IH]; intros i; cbn [hpacked_loop]; [apply sure_stuck|]. destruct (i <? post); [|now apply sure_ret].
  eapply sure_bind; [now apply sure_fieldItem|]. intros; apply IH.
Qed.
Lemma sure_prealloc md f k bs v : mine v -> sure (prealloc md f k bs v) (fun _ => True).
Proof.
  intros Mv. unfold prealloc. eapply sure_bind; [now apply sure_get|]. intros old Mo. destruct (_ && _); [|now apply sure_ret].
  eapply sure_bind; [apply sure_acc, ms_alloc|]. { apply mine_arr. intros y Hy. eapply mine_repeat; eauto. } intros a Sa. apply sure_set; auto.
Qed.
Lemma sure_field md f wire p i v : fits p -> mine v -> sure (hfield sc unsafe grow uunm rec md f wire p i v) (fun _ => True).
Proof.
  intros Fp Mv. unfold hfield. destruct (f_ty f) as [lbl k|kk vk].
  - destruct (Unmarshal.packable lbl k); (destruct (_ =? _); [now apply sure_fieldItem|]); [|apply sure_err].
    destruct (_ =? 2); [|apply sure_err]. eapply sure_bind; [apply sure_data|]. intros d _. eapply sure_bind; [apply sure_calc|]. intros [i' post] _.
    eapply sure_bind; [apply sure_data|]. intros bs _. eapply sure_bind; [now apply sure_prealloc|]. intros. now apply sure_packed_loop.
  - destruct (_ =? 2); [now apply sure_map_item|apply sure_err].
Qed.
Lemma sure_unknown m num p i v : mine v -> sure (hunknown sc grow uext m num p i v) (fun _ => True).
Proof.
  intros Mv. unfold hunknown. eapply sure_bind; [apply sure_data|]. intros d _. eapply sure_bind; [apply sure_calc|]. intros rest _. eapply sure_bind; [apply sure_calc|]. intros skippy _.
  destruct (_ || _); [apply sure_err|]. destruct (zlen d <? _); [apply sure_err|]. eapply sure_bind; [apply sure_calc|]. intros raw _.
  destruct (Unmarshal.in_ext _ _). { eapply sure_bind; [now apply sure_up|]. intros. now apply sure_ret. }
  destruct (md_keep _); [|now apply sure_ret]. destruct v; try apply sure_stuck; [apply sure_crash|].
  eapply sure_bind; [apply sure_acc, ms_get_unk; auto|]. intros u [Mu Su]. eapply sure_bind; [now apply sure_append_bytes|]. intros u' [Mu' Su'].
  eapply sure_bind; [apply sure_acc, ms_set_unk; auto|]. intros. now apply sure_ret.
Qed.
Lemma sure_step m p i v has : fits p -> mine v -> sure (hstep sc unsafe grow uunm uext rec m p i v has) (fun _ => True).
Proof.
  intros Fp Mv. unfold hstep. eapply sure_bind; [apply sure_data|]. intros d _. eapply sure_bind; [apply sure_calc|]. intros [wire i'] _.
  destruct (_ =? 4); [apply sure_err|]. destruct (_ <=? 0); [apply sure_err|]. destruct (find_field _ _).
  - eapply sure_bind; [now apply sure_field|]. intros. now apply sure_ret.
  - eapply sure_bind; [now apply sure_unknown|]. intros. now apply sure_ret.
Qed.
Lemma sure_loop fuel m p v : fits p -> mine v -> forall i has, sure (hloop sc unsafe grow uunm uext rec fuel m p i v has) (fun _ => True).
Proof.
  intros Fp Mv. induction fuel as [|fuel IH]; intros i has; cbn [hloop]; [apply sure_stuck|]. destruct (_ <? _); [|now apply sure_ret].
  eapply sure_bind; [now apply sure_step|]. intros [i' has'] _. apply IH.
Qed.
Lemma sure_body m p v : fits p -> mine v -> sure (hbody sc unsafe grow uunm uext rec m p v) (fun _ => True).
Proof.
  intros Fp Mv. unfold hbody. eapply sure_bind; [now apply sure_loop|]. intros [i has] _. destruct (negb _); [apply sure_err|]. destruct (_ <? _); [apply sure_err|]. now apply sure_ret.
Qed.
End Level.

Lemma sure_msg unsafe uunm uext : up_confined uunm -> up_confined uext -> (unsafe = false -> forall a, ~ B a) -> forall n m p v, fits unsafe p -> mine v ->
  sure (hum_msg sc unsafe grow uunm uext n m p v) (fun _ => True).
Proof.
  intros UC XC SAFE. induction n as [|n IH]; intros m p v Fp Mv; cbn [hum_msg]; [apply sure_stuck|]. now apply sure_body.
Qed.

(** * ResetVT *)
Section Reset.
Variable rec : nat -> hval -> D unit.
Hypothesis REC : forall m v, mine v -> sure (rec m v) (fun _ => True).
Lemma sure_return m v : mine v -> sure (hreturn rec m v) (fun _ => True).
Proof.
  intros Mv. destruct v; try apply sure_stuck; [now apply sure_ret|]. cbn [hreturn]. eapply sure_bind; [now apply REC|]. intros _ _.
  eapply sure_bind; [apply sure_acc, ms_load; eauto|]. intros [] H; try apply sure_stuck. ours H. intros s [G1 G2].
  split; auto. split; auto. cbn. intros m' a' [E|I]; [injection E as <- <-; auto|eauto].
Qed.
Lemma sure_Reset m v : mine v -> sure (hReset sc m v) (fun _ => True).
Proof.
  intros Mv. destruct v; try apply sure_stuck; [apply sure_crash|]. apply sure_acc. eapply ms_bind; [apply ms_load; eauto|]. intros [] H; try apply ms_fail. ours H.
  apply ms_store; auto. apply mine_new.
Qed.
Lemma sure_reset_elems m l : (forall x, In x l -> mine x) -> sure (hreset_elems sc rec m l) (fun _ => True).
Proof.
  intros H. induction l as [|x l IH]; cbn [hreset_elems]; [now apply sure_ret|]. eapply sure_bind with (Q := fun _ => True).
  - destruct (md_pool _); [apply REC|apply sure_Reset]; apply H; now left.
  - intros _ _. apply IH. intros y Hy. apply H. now right.
Qed.
Lemma sure_clear k v : mine v -> sure (hclear k v) (fun _ => True).
Proof.
  intros Mv. destruct v; try apply sure_stuck; [now apply sure_ret|]. cbn [hclear]. apply sure_acc. eapply ms_bind; [apply ms_load; eauto|]. intros [] H; try apply ms_fail. ours H.
  apply ms_store; eauto. apply mine_arr. intros y Hy. cbn in Hy. rewrite !in_app_iff in Hy. destruct Hy as [Hy|[Hy|Hy]].
  - apply in_firstn in Hy. apply (mine_vars _ _ H Hy).
  - apply repeat_spec in Hy as ->. destruct (classify k); auto.
  - apply (mine_vars _ _ H). now apply in_skipn in Hy.
Qed.
Lemma sure_reset_field f v : mine v -> sure (hreset_field sc rec f v) (fun r => match r with Some x => mine x | None => True end).
Proof.
  intros Mv. unfold hreset_field. destruct (f_ty f) as [lbl k|kk vk]; [|now apply sure_ret].
  assert (sure (match classify k with
      | CMsg m | CGrp m => if md_pool (md_of sc m) then dec! x := dget v (f_slot f) in dec! _ := hreturn rec m x in dret None else dret None
      | CByt => dec! x := dget v (f_slot f) in dec! y := cut0 x in dret (Some y)
      | _ => dret None end) (fun r => match r with Some x => mine x | None => True end)) as R.
  { destruct (classify k); try (now apply sure_ret).
    - eapply sure_bind; [now apply sure_get|]. intros x Mx. eapply sure_bind; [now apply sure_cut0|]. intros. now apply sure_ret.
    - destruct (md_pool _); [|now apply sure_ret]. eapply sure_bind; [now apply sure_get|]. intros x Mx. eapply sure_bind; [now apply sure_return|]. intros. now apply sure_ret.
    - destruct (md_pool _); [|now apply sure_ret]. eapply sure_bind; [now apply sure_get|]. intros x Mx. eapply sure_bind; [now apply sure_return|]. intros. now apply sure_ret. }
  destruct lbl; auto; clear R.
  - eapply sure_bind; [now apply sure_get|]. intros x Mx. eapply sure_bind with (Q := fun _ => True).
    { assert (forall m, sure (match x with HNil => dret tt | _ => dec! l := acc (elems_of x) in hreset_elems sc rec m l end) (fun _ => True)) as E.
      { intros m. assert (sure (dec! l := acc (elems_of x) in hreset_elems sc rec m l) (fun _ => True)) as E
          by (eapply sure_bind; [apply sure_acc, ms_elems_of; auto|intros; now apply sure_reset_elems]).
        destruct x; auto. now apply sure_ret. }
      destruct (classify k); try (now apply sure_ret); auto; now apply sure_clear. }
    intros _ _. eapply sure_bind; [now apply sure_cut0|]. intros. now apply sure_ret.
  - assert (forall m, sure (if md_pool (md_of sc m) then
            dec! x := dget v (f_slot f) in
            match x with
            | HPtr w => dec! o := acc (load w) in
                match o with OWrap n y => if n =? f_num f then dec! _ := hreturn rec m y in dret (@None hval) else dret None | _ => dstuck end
            | HNil => dret None | _ => dstuck end else dret None) (fun r => match r with Some x => mine x | None => True end)) as E.
    { intros m. destruct (md_pool _); [|now apply sure_ret]. eapply sure_bind; [now apply sure_get|]. intros x Mx.
      destruct x; try apply sure_stuck; [now apply sure_ret|]. eapply sure_bind; [apply sure_acc, ms_load; eauto|]. intros [] [H _]; try apply sure_stuck.
      destruct (_ =? _); [|now apply sure_ret]. eapply sure_bind; [apply sure_return; apply (mine_vars _ _ H); now left|]. intros. now apply sure_ret. }
    destruct (classify k); try (now apply sure_ret); auto.
Qed.
Lemma sure_reset_fields fs v : mine v -> sure (hreset_fields sc rec fs v) (fun l => forall i x, In (i, x) l -> mine x).
Proof.
  intros Mv. induction fs as [|f fs IH]; cbn [hreset_fields]; [apply sure_ret; intros i x []|].
  eapply sure_bind; [now apply sure_reset_field|]. intros r Hr. eapply sure_bind; [apply IH|]. intros l Hl. apply sure_ret.
  destruct r; auto. intros i x [E|H]; [injection E as <- <-; auto|eauto].
Qed.
Lemma sure_restore l v : mine v -> (forall i x, In (i, x) l -> mine x) -> sure (hrestore l v) (fun _ => True).
Proof.
  intros Mv H. induction l as [|[i x] l IH]; cbn [hrestore]; [now apply sure_ret|]. eapply sure_bind; [apply sure_set; auto; eapply H; now left|].
  intros _ _. apply IH. intros j y Hy. eapply H. right. eassumption.
Qed.
Lemma sure_reset_body m v : mine v -> sure (hreset_body sc rec m v) (fun _ => True).
Proof.
  intros Mv. destruct v; try apply sure_stuck; [now apply sure_ret|]. cbn [hreset_body]. eapply sure_bind; [now apply sure_reset_fields|]. intros l Hl.
  eapply sure_bind; [now apply sure_Reset|]. intros. now apply sure_restore.
Qed.
End Reset.
Lemma sure_reset n m v : mine v -> sure (hreset_msg sc n m v) (fun _ => True).
Proof. revert m v. induction n as [|n IH]; intros m v Mv; cbn [hreset_msg]; [apply sure_stuck|]. now apply sure_reset_body. Qed.
End Confined.
