(** ResetVT and ReturnToVTPool run to completion on messages without nil elements
    in lists of unpooled messages. *)
From Coq Require Import ZArith List Bool Lia.
From Verif Require Import Base BaseFacts Schema Value Helpers Size Marshal Unmarshal Pool WireSpec Typing RecordSpec MsgSpec DecodeSpec ContentSpec PoolSpec
  MarshalFacts TargetFacts WithinFacts.
Import ListNotations.
Open Scope Z_scope.

Lemma depth_holds s u h f k x : holds f (slot s (f_slot f)) k x -> (vdepth x < vdepth (VMsg s u h))%nat.
Proof.
  intros H. pose proof (depth_slot s (f_slot f) u h) as D. remember (slot s (f_slot f)) as v eqn:E. clear E.
  destruct H as [f p k l x Ty Hx|f kk k l y x Ty Hx|f l k x Ty L Nx|f k x Ty].
  - pose proof (depth_list x l Hx). lia.
  - pose proof (depth_map (y, x) l Hx). cbn [snd] in *. lia.
  - lia.
  - cbn [vdepth] in *. lia.
Qed.

Section Total.
Variable sc : schema.
Hypothesis W : wf_schema sc = true.
Hypothesis PL : pools_local sc.
Section Level.
Variable rec : nat -> val -> res unit (val * puts).
Variable n : nat.
Hypothesis IH : forall m v, (vdepth v < n)%nat -> md_pool (md_of sc m) = true -> wt_msg sc m v -> no_nil_elements sc m v -> exists r, rec m v = Ok r.

Definition fine (m : nat) (x : val) : Prop := (vdepth x < n)%nat /\ (x = VNil \/ wt_msg sc m x) /\ no_nil_elements sc m x.

Lemma return_sub_fine m x : md_pool (md_of sc m) = true -> fine m x -> exists r, return_sub rec m x = Ok r.
Proof.
  intros P (D & [->|T] & N); [cbn; eauto|]. destruct (IH m x D P T N) as [r E]. unfold return_sub. destruct x; eauto. rewrite E. cbn. eauto.
Qed.
Lemma reset_elems_fine m l : (md_pool (md_of sc m) = false -> ~ In VNil l) -> (forall x, In x l -> fine m x) -> exists r, reset_elems sc rec m l = Ok r.
Proof.
  induction l as [|x l IHl]; intros NN H; cbn [reset_elems]; [eauto|].
  destruct IHl as [r' Er]; [intros P Q; apply (NN P); now right|intros; apply H; now right|]. rewrite Er.
  destruct (H x (or_introl eq_refl)) as (D & T & N). destruct (md_pool (md_of sc m)) eqn:P.
  - destruct T as [->|T]; [cbn; eauto|]. destruct (IH m x D P T N) as [r E]. destruct x; cbn; eauto. rewrite E. cbn. eauto.
  - destruct T as [->|T]; [destruct NN; auto; now left|]. inversion T; subst. cbn. eauto.
Qed.

Lemma reset_field_fine m f s u h : md_foreign (md_of sc m) = false -> wt_msg sc m (VMsg s u h) -> (vdepth (VMsg s u h) < S n)%nat -> no_nil_elements sc m (VMsg s u h) ->
  In f (md_fields (md_of sc m)) -> exists r, reset_field sc rec f s h = Ok r.
Proof.
  intros F T D N Hf. inversion T as [? ? ? ? L HF Bu]; subst.
  assert (forall k m' x, holds f (slot s (f_slot f)) k x -> sub_of k = Some m' -> fine m' x) as FI.
  { intros k m' x Hh Sk. split; [pose proof (depth_holds s u h f k x Hh); lia|]. split; [exact (holds_wt sc W m f _ k x _ Hf (HF f Hf) Hh Sk)|].
    intros m1 s1 u1 h1 f1 p k1 m2 l Hw. eapply N. eapply in_sub; eauto. }
  unfold reset_field. specialize (HF f Hf). apply wt_field_inv in HF. destruct (f_ty f) as [lbl k|kk vk] eqn:Ty; [|eauto].
  assert (forall m', classify k = CMsg m' \/ classify k = CGrp m' -> sub_of k = Some m') as CS by (intros m' [C|C]; destruct k; try discriminate; injection C as ->; reflexivity).
  assert (forall m', sub_of k = Some m' -> slot s (f_slot f) = VNil \/ holds f (slot s (f_slot f)) k (slot s (f_slot f)) ->
    md_pool (md_of sc m') = true -> exists r, return_sub rec m' (slot s (f_slot f)) = Ok r) as RS.
  { intros m' Sk [E|Hh] P; [rewrite E; cbn; eauto|]. apply return_sub_fine; eauto. }
  destruct lbl as [| | |p|].
  - pose proof (wf_ty sc m f W Hf) as Wt. rewrite Ty in Wt. destruct k; cbn [classify]; eauto; cbn in Wt; rewrite andb_false_r in Wt; discriminate.
  - assert (slot s (f_slot f) = VNil \/ holds f (slot s (f_slot f)) k (slot s (f_slot f))) as HH.
    { assert ({slot s (f_slot f) = VNil} + {slot s (f_slot f) <> VNil}) as [E|E] by (destruct (slot s (f_slot f)); auto; right; discriminate); [auto|right; eapply holds_set; eauto]. }
    destruct (classify k) eqn:C; eauto; (destruct (md_pool _) eqn:P; eauto; destruct (RS _ (CS _ ltac:(eauto)) HH P) as [r ->]; cbn; eauto).
  - assert (slot s (f_slot f) = VNil \/ holds f (slot s (f_slot f)) k (slot s (f_slot f))) as HH.
    { assert ({slot s (f_slot f) = VNil} + {slot s (f_slot f) <> VNil}) as [E|E] by (destruct (slot s (f_slot f)); auto; right; discriminate); [auto|right; eapply holds_set; eauto]. }
    destruct (classify k) eqn:C; eauto; (destruct (md_pool _) eqn:P; eauto; destruct (RS _ (CS _ ltac:(eauto)) HH P) as [r ->]; cbn; eauto).
  - assert (forall m', sub_of k = Some m' -> exists r, reset_elems sc rec m' (vlist (slot s (f_slot f))) = Ok r) as RE.
    { intros m' Sk. destruct HF as [E|(l & E & Tl)]; [rewrite E; cbn; eauto|]. rewrite E in *. cbn [vlist]. apply reset_elems_fine.
      - intros P. eapply (N m s u h f p k m' l); eauto. apply in_self.
      - intros x Hx. eapply FI; eauto. eapply holds_list; eauto. }
    destruct (classify k) eqn:C; eauto; (destruct (RE _ (CS _ ltac:(eauto))) as [r ->]; cbn; eauto).
  - destruct (slot s (f_slot f)) as [| | | | | | |num x| | | ] eqn:E; destruct (classify k) eqn:C; eauto;
      (destruct ((num =? f_num f) && md_pool _) eqn:P; eauto; apply andb_true_iff in P as [Q P]; apply Z.eqb_eq in Q; subst num;
       destruct (return_sub_fine _ x P) as [r ->]; [eapply FI; [eapply holds_member; eauto|apply CS; eauto]|cbn; eauto]).
Qed.
Lemma reset_fields_fine m s u h : md_foreign (md_of sc m) = false -> wt_msg sc m (VMsg s u h) -> (vdepth (VMsg s u h) < S n)%nat -> no_nil_elements sc m (VMsg s u h) ->
  forall fs, incl fs (md_fields (md_of sc m)) -> forall acc acch, exists r, reset_fields sc rec s h fs acc acch = Ok r.
Proof.
  intros F T D N. induction fs as [|f fs IHf]; intros I acc acch; cbn [reset_fields]; [eauto|].
  destruct (reset_field_fine m f s u h F T D N (I f (or_introl eq_refl))) as [[saved q] ->]. cbn [rbind].
  destruct saved as [[x y]|]; cbv beta iota zeta.
  - destruct (IHf (fun g Hg => I g (or_intror Hg)) (list_set acc (f_slot f) x) (list_set acch (f_slot f) y)) as [[[a b] c] ->]. cbn. eauto.
  - destruct (IHf (fun g Hg => I g (or_intror Hg)) acc acch) as [[[a b] c] ->]. cbn. eauto.
Qed.
End Level.

Lemma reset_msg_fine n : forall m v, (vdepth v < n)%nat -> md_pool (md_of sc m) = true -> wt_msg sc m v -> no_nil_elements sc m v -> exists r, reset_msg sc n m v = Ok r.
Proof.
  induction n as [|n IH]; intros m v D P T N; [lia|]. cbn [reset_msg]. pose proof T as T'. destruct T as [m s u h L HF Bu]. cbn [reset_body].
  destruct (reset_fields_fine (reset_msg sc n) n IH m s u h (PL m P) T' D N (md_fields (md_of sc m)) (incl_refl _) (zero_slots (md_of sc m)) (repeat [] (md_nslots (md_of sc m)))) as [[[a b] c] ->].
  cbn. eauto.
Qed.
End Total.
