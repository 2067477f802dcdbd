(** EqualVT is symmetric and transitive and decides [same_msg]. *)
From Coq Require Import ZArith List Bool Lia Permutation.
From Verif Require Import Base BaseFacts Schema Value Helpers Unmarshal Equal WireSpec Typing RecordSpec MsgSpec DecodeSpec ContentSpec EqualSpec
  OrderFacts SimFacts MarshalFacts SameFacts EqualRel.
Import ListNotations.
Open Scope Z_scope.

Lemma go_equal_sym k x y : go_equal k x y -> go_equal k y x.
Proof. unfold go_equal. intuition congruence. Qed.
Lemma go_equal_trans k x y z : go_equal k x y -> go_equal k y z -> go_equal k x z.
Proof. unfold go_equal. intuition (subst; auto). Qed.
Lemma go_equal_refl k x : ~ nan k x -> go_equal k x x.
Proof. unfold go_equal. auto. Qed.
Lemma nan_zero k : ~ nan k 0.
Proof. destruct k; cbn; auto; intros [H _]; revert H; vm_compute; discriminate. Qed.
Lemma num_eqb_sym k x y : num_eqb k x y = true -> num_eqb k y x = true.
Proof. rewrite !num_eqb_spec. apply go_equal_sym. Qed.
Lemma num_eqb_trans k x y z : num_eqb k x y = true -> num_eqb k y z = true -> num_eqb k x z = true.
Proof. rewrite !num_eqb_spec. apply go_equal_trans. Qed.

(** * Maps as finite functions *)
Lemma in_fst {A B} (k : A) (v : B) l : In (k, v) l -> In k (map fst l).
Proof. intros H. apply in_map with (f := fst) in H. exact H. Qed.
Lemma fst_in {A B} (k : A) (l : list (A * B)) : In k (map fst l) -> exists v, In (k, v) l.
Proof. intros H. apply in_map_iff in H as ([k' v] & <- & H). eauto. Qed.
Lemma fst_inj {A B} (k : A) (v v' : B) l : NoDup (map fst l) -> In (k, v) l -> In (k, v') l -> v = v'.
Proof.
  induction l as [|[k0 v0] l IH]; cbn; intros ND H H'; [tauto|]. inversion ND; subst.
  destruct H as [H|H]; destruct H' as [H'|H']; [congruence| | |auto].
  - injection H as -> ->. apply in_fst in H'. contradiction.
  - injection H' as -> ->. apply in_fst in H. contradiction.
Qed.
(** The other way round. *)
Lemma map_back {A B} (R : A -> B -> B -> Prop) (l l' : list (A * B)) : length l = length l' -> NoDup (map fst l) -> NoDup (map fst l') ->
  (forall e, In e l -> exists y, In (fst e, y) l' /\ R (fst e) (snd e) y) ->
  forall e, In e l' -> exists x, In (fst e, x) l /\ R (fst e) x (snd e).
Proof.
  intros L ND ND' H [k y] He.
  assert (incl (map fst l) (map fst l')) as I1.
  { intros k0 Hk. apply fst_in in Hk as (v & Hv). destruct (H _ Hv) as (y0 & Hy & _). now apply in_fst in Hy. }
  assert (incl (map fst l') (map fst l)) as I2.
  { apply NoDup_length_incl; [assumption|rewrite !map_length; lia|assumption]. }
  pose proof (I2 k (in_fst _ _ _ He)) as Hk. apply fst_in in Hk as (x & Hx). destruct (H _ Hx) as (y0 & Hy & Q). cbn in *.
  rewrite (fst_inj k y0 y l' ND' Hy He) in Q. eauto.
Qed.

Section Facts.
Variable sc : schema.
Hypothesis W : wf_schema sc = true.

(** * More sharing *)
Section Mono.
Variables o o' : list step -> bool.
Definition weaker (p : list step) : Prop := forall q, o (q ++ p) = true -> o' (q ++ p) = true.
Lemma weaker_step st p : weaker p -> weaker (st :: p).
Proof. intros H q E. specialize (H (q ++ [st])). rewrite <- app_assoc in H. now apply H. Qed.
Lemma weaker_here p : weaker p -> o p = true -> o' p = true.
Proof. intros H. exact (H []). Qed.
Hint Resolve weaker_step weaker_here : core.

Fixpoint mono_v p st k a b (H : eqv sc o p st k a b) {struct H} : weaker (st :: p) -> eqv sc o' p st k a b
with mono_l p s k i l l' (H : eql sc o p s k i l l') {struct H} : weaker p -> eql sc o' p s k i l l'
with mono_f p f a b (H : eqf sc o p f a b) {struct H} : weaker p -> eqf sc o' p f a b
with mono_o p md s a b (H : eqo sc o p md s a b) {struct H} : weaker p -> eqo sc o' p md s a b
with mono_m p m a b (H : eqm sc o p m a b) {struct H} : weaker p -> eqm sc o' p m a b.
Proof.
  - intros Wk. destruct H.
    + now apply ev_num.
    + now apply ev_text.
    + eapply ev_nil; eauto.
    + eapply ev_ptr; eauto.
    + eapply ev_msg; eauto.
    + eapply ev_up; eauto.
  - intros Wk. destruct H; constructor; [apply mono_v; auto|eauto].
  - intros Wk. destruct H.
    + eapply ef_implicit; eauto.
    + eapply ef_unset; eauto.
    + eapply ef_set; eauto.
    + eapply ef_msg; eauto.
    + eapply ef_up; eauto.
    + eapply ef_list; eauto.
    + eapply ef_map; eauto. intros e He. match goal with X : forall e, In e _ -> exists y, _ |- _ => destruct (X e He) as (y & Hy & V) end. eauto.
  - intros Wk. destruct H.
    + apply eo_none.
    + apply eo_wrap. eauto.
    + eapply eo_member; eauto.
  - intros Wk. destruct H.
    + apply em_nil.
    + apply em_ptr; eauto.
    + apply em_msg; eauto.
Qed.
End Mono.

(** * Symmetry *)
Section Symm.
Hypothesis U : up_eq_ok sc.
Variable o : list step -> bool.
Fixpoint symm_v p st k a b (H : eqv sc o p st k a b) {struct H} : eqv sc o p st k b a
with symm_l p s k i l l' (H : eql sc o p s k i l l') {struct H} : eql sc o p s k i l' l
with symm_f p f a b (H : eqf sc o p f a b) {struct H} : eqf sc o p f b a
with symm_o p md s a b (H : eqo sc o p md s a b) {struct H} : eqo sc o p md s b a
with symm_m p m a b (H : eqm sc o p m a b) {struct H} : eqm sc o p m b a.
Proof.
  - destruct H as [p st k x y N X|p st k a b K X|p st k m S|p st k m a S Eo Na|p st k m a b S F X|p st k m a b S F X].
    + exact (ev_num _ _ _ _ _ _ _ N (num_eqb_sym _ _ _ X)).
    + exact (ev_text _ _ _ _ _ _ _ K (eq_sym X)).
    + exact (ev_nil _ _ _ _ _ _ S).
    + exact (ev_ptr _ _ _ _ _ _ _ S Eo Na).
    + exact (ev_msg _ _ _ _ _ _ _ _ S F (symm_m _ _ _ _ X)).
    + exact (ev_up _ _ _ _ _ _ _ _ S F (up_eq_sym sc U _ _ _ X)).
  - destruct H as [p s k i|p s k i x y l l' V L].
    + constructor.
    + exact (el_cons _ _ _ _ _ _ _ _ _ _ (symm_v _ _ _ _ _ V) (symm_l _ _ _ _ _ _ L)).
  - destruct H as [p f k a b T X|p f l k T L S|p f l k a b T L S Na Nb X|p f l k m a b T L S F X|p f l k m a b T L S F X|p f q k a b T X|p f kk vk a b T Ln N1 N2 X].
    + exact (ef_implicit _ _ _ _ _ _ _ T (symm_v _ _ _ _ _ X)).
    + exact (ef_unset _ _ _ _ _ _ T L S).
    + exact (ef_set _ _ _ _ _ _ _ _ T L S Nb Na (symm_v _ _ _ _ _ X)).
    + exact (ef_msg _ _ _ _ _ _ _ _ _ T L S F (symm_m _ _ _ _ X)).
    + exact (ef_up _ _ _ _ _ _ _ _ _ T L S F (up_eq_sym sc U _ _ _ X)).
    + exact (ef_list _ _ _ _ _ _ _ _ T (symm_l _ _ _ _ _ _ X)).
    + refine (ef_map _ _ _ _ _ _ _ _ T (eq_sym Ln) N2 N1 _).
      assert (forall e, In e (vmap a) -> exists y, In (fst e, y) (vmap b) /\ eqv sc o p (SKey (f_slot f) (fst e)) vk y (snd e)) as Y.
      { intros e He. destruct (X e He) as (y & Hy & V). exact (ex_intro _ y (conj Hy (symm_v _ _ _ _ _ V))). }
      exact (map_back (fun k x y => eqv sc o p (SKey (f_slot f) k) vk y x) (vmap a) (vmap b) Ln N1 N2 Y).
  - destruct H as [p md s|p md s n x Eo|p md s g k x y Hg Sg Tg V].
    + apply eo_none.
    + exact (eo_wrap _ _ _ _ _ _ _ Eo).
    + exact (eo_member _ _ _ _ _ _ _ _ _ Hg Sg Tg (symm_v _ _ _ _ _ V)).
  - destruct H as [p m|p m a Eo Na|p m s u h s' u' h' A1 A2 A3].
    + apply em_nil.
    + exact (em_ptr _ _ _ _ _ Eo Na).
    + exact (em_msg _ _ _ _ _ _ _ _ _ _ (fun f Hf O => symm_f _ _ _ _ (A1 f Hf O)) (fun f Hf O => symm_o _ _ _ _ _ (A2 f Hf O)) (fun K => eq_sym (A3 K))).
Qed.
End Symm.

(** * Transitivity *)
(** The new empty message holds no pointers. *)
Lemma zero_any o o' p m f b : In f (md_fields (md_of sc m)) -> is_oneof f = false -> eqf sc o p f (zero_of (f_ty f)) b -> eqf sc o' p f (zero_of (f_ty f)) b.
Proof.
  intros Hf O H. inversion H; subst.
  - eapply ef_implicit; eauto. pose proof (wf_ty sc m f W Hf) as WT. match goal with T : f_ty f = _ |- _ => rewrite T in WT end.
    cbn in WT. apply andb_true_iff in WT as [_ WT].
    match goal with V : eqv _ _ _ _ _ _ _ |- _ => inversion V; subst end; try (apply ev_num; assumption); try (apply ev_text; assumption);
      match goal with S : sub_of _ = Some _ |- _ => rewrite S in WT; discriminate end.
  - eapply ef_unset; eauto.
  - exfalso. match goal with T : f_ty f = _, L : _ \/ _, N : zero_of _ <> VNil |- _ => rewrite T in N; destruct L; subst; now apply N end.
  - match goal with T : f_ty f = _, L : _ \/ _, M : eqm _ _ _ _ _ _ |- _ => replace (zero_of (f_ty f)) with VNil in * by (rewrite T; destruct L; subst; reflexivity); inversion M; subst; [|contradiction] end.
    eapply ef_msg; eauto. apply em_nil.
  - eapply ef_up; eauto.
  - eapply ef_list; eauto. match goal with T : f_ty f = _, L : eql _ _ _ _ _ _ _ _ |- _ => rewrite T in *; cbn [zero_of vlist] in *; inversion L; constructor end.
  - eapply ef_map; eauto. match goal with T : f_ty f = _ |- _ => rewrite T end. intros e [].
Qed.
Lemma zero_self_eq o p m f : In f (md_fields (md_of sc m)) -> is_oneof f = false -> up_eq_ok sc -> eqf sc o p f (zero_of (f_ty f)) (zero_of (f_ty f)).
Proof.
  intros Hf O U. pose proof (wf_ty sc m f W Hf) as WT. unfold is_oneof in O. destruct (f_ty f) as [[| | |q|] k|kk vk] eqn:Ty; try discriminate.
  - eapply ef_implicit; eauto. cbn in WT. apply andb_true_iff in WT as [_ WT]. cbn [zero_of].
    destruct k; try discriminate; cbn [classify]; try (apply ev_text; auto; fail); apply ev_num; reflexivity.
  - cbn [zero_of]. destruct (sub_of k) as [ms|] eqn:Sk; [|eapply ef_unset; eauto].
    destruct (md_foreign (md_of sc ms)) eqn:F; [eapply ef_up; eauto using up_eq_nil|eapply ef_msg; eauto using em_nil].
  - cbn [zero_of]. destruct (sub_of k) as [ms|] eqn:Sk; [|eapply ef_unset; eauto].
    destruct (md_foreign (md_of sc ms)) eqn:F; [eapply ef_up; eauto using up_eq_nil|eapply ef_msg; eauto using em_nil].
  - eapply ef_list; eauto. constructor.
  - eapply ef_map; eauto; try constructor. intros e [].
Qed.
Lemma new_any o o' p m b : up_eq_ok sc -> eqm sc o p m (new_msg (md_of sc m)) b -> eqm sc o' p m (new_msg (md_of sc m)) b.
Proof.
  intros U H. inversion H as [|? ? ? Eo|? ? ? ? ? s' u' h' A1 A2 A3]; subst.
  - apply em_msg; auto; intros f Hf O.
    + rewrite (slot_zero sc m f W Hf). now apply (zero_self_eq o' p m).
    + rewrite (slot_zero sc m f W Hf). unfold is_oneof in O. destruct (f_ty f) as [[]|]; try discriminate. apply eo_none.
  - apply em_msg; auto; intros f Hf O.
    + specialize (A1 f Hf O). rewrite (slot_zero sc m f W Hf) in *. now apply (zero_any o o' p m).
    + specialize (A2 f Hf O). rewrite (slot_zero sc m f W Hf) in *. unfold is_oneof in O. destruct (f_ty f) as [[]|]; try discriminate. cbn in *. inversion A2; subst. apply eo_none.
Qed.

(** Pointers below a shared pointer are shared. *)
Definition closed (o : list step -> bool) : Prop :=
  (forall p st, o p = true -> o (st :: p) = true) /\ (forall p s, o (SWrap s :: p) = true -> o (SField s :: p) = true).
Lemma closed_below o p q : closed o -> o p = true -> o (q ++ p) = true.
Proof. intros [C _] H. induction q as [|st q IH]; cbn; auto. Qed.

Section Trans.
Hypothesis U : up_eq_ok sc.
Variables o1 o2 o3 : list step -> bool.
Hypothesis C1 : closed o1.
Hypothesis C2 : closed o2.
Hypothesis J : forall p, o1 p = true -> o2 p = true -> o3 p = true.
Lemma left_shared p : o1 p = true -> weaker o2 o3 p.
Proof. intros H q. apply J. now apply closed_below. Qed.
Lemma right_shared p : o2 p = true -> weaker o1 o3 p.
Proof. intros H q E. apply J; [assumption|now apply closed_below]. Qed.
Hint Resolve left_shared right_shared : core.

Ltac kinds := match goal with
  | N : is_num ?k = true, K : ?k = KString \/ ?k = KBytes |- _ => destruct K; subst; discriminate
  | N : is_num ?k = true, K : sub_of ?k = Some _ |- _ => destruct k; discriminate
  | N : sub_of ?k = Some _, K : ?k = KString \/ ?k = KBytes |- _ => destruct K; subst; discriminate
  end.
Ltac subs := match goal with A : sub_of ?k = Some ?m, B : sub_of ?k = Some ?m' |- _ => assert (m' = m) by congruence; subst m'; clear B end.

Lemma trans_l' p s k l : forall l' i, (forall x y, In x l -> In y l' -> forall c i, eqv sc o1 p (SElem s i) k x y -> eqv sc o2 p (SElem s i) k y c -> eqv sc o3 p (SElem s i) k x c) ->
  eql sc o1 p s k i l l' -> forall l'', eql sc o2 p s k i l' l'' -> eql sc o3 p s k i l l''.
Proof.
  induction l as [|x l IH]; intros l' i H H1 l'' H2; inversion H1; subst; inversion H2; subst; constructor.
  - eapply H; eauto; now left.
  - eapply IH; eauto. intros; eapply H; eauto; now right.
Qed.

Fixpoint tr_v p st k a b (H : eqv sc o1 p st k a b) {struct H} : forall c, eqv sc o2 p st k b c -> eqv sc o3 p st k a c
with tr_l p s k i l l' (H : eql sc o1 p s k i l l') {struct H} : forall c, eql sc o2 p s k i l' c -> eql sc o3 p s k i l c
with tr_f p f a b (H : eqf sc o1 p f a b) {struct H} : forall c, eqf sc o2 p f b c -> eqf sc o3 p f a c
with tr_o p md s a b (H : eqo sc o1 p md s a b) {struct H} : (forall g g', In g (md_fields md) -> In g' (md_fields md) -> f_num g = f_num g' -> g = g') ->
  forall c, eqo sc o2 p md s b c -> eqo sc o3 p md s a c
with tr_m p m a b (H : eqm sc o1 p m a b) {struct H} : forall c, eqm sc o2 p m b c -> eqm sc o3 p m a c.
Proof.
  - destruct H as [p st k x y N X|p st k a b K X|p st k m S|p st k m a S Eo Na|p st k m a b S F X|p st k m a b S F X]; intros c H2.
    + inversion H2; subst; try kinds. apply ev_num; eauto using num_eqb_trans.
    + inversion H2; subst; try kinds. apply ev_text; [auto|congruence].
    + inversion H2; subst; try kinds; try subs; try contradiction.
      * eapply ev_nil; eauto.
      * eapply ev_msg; eauto. eapply new_any; eauto.
      * eapply ev_up; eauto.
    + eapply mono_v; [eassumption|]. auto.
    + assert (forall q, o2 (st :: p) = true -> weaker o1 o3 (q ++ st :: p)) as R by (intros q Q r E; apply J; [assumption|apply closed_below; [assumption|now apply closed_below]]).
      inversion H2; subst; try kinds; subs; try congruence.
      * eapply ev_msg; eauto. apply (symm_m U), (new_any o1 o3 _ _ _ U), (symm_m U). exact X.
      * eapply ev_msg; eauto. apply (mono_m o1 o3); [exact X|auto].
      * eapply ev_msg; eauto.
    + inversion H2; subst; try kinds; subs; try congruence.
      * eapply ev_up; eauto.
      * eapply ev_up; eauto.
      * eapply ev_up; eauto using up_eq_trans.
  - destruct H as [p s k i|p s k i x y l l' V L]; intros c H2; inversion H2; subst; constructor; eauto.
  - destruct H as [p f k a b T X|p f l k T L S|p f l k a b T L S Na Nb X|p f l k m a b T L S F X|p f l k m a b T L S F X|p f q k a b T X|p f kk vk a b T Ln N1 N2 X]; intros c H2.
    + inversion H2; subst; tys; try (match goal with L : LImplicit = _ \/ _ |- _ => destruct L; discriminate end). eapply ef_implicit; eauto.
    + inversion H2; subst; tys; try (match goal with L : _ = _ \/ _ |- _ => destruct L; discriminate end); try congruence. eapply ef_unset; eauto.
    + inversion H2; subst; tys; try (match goal with L : _ = _ \/ _ |- _ => destruct L; discriminate end); try congruence. eapply ef_set; eauto.
    + inversion H2; subst; tys; try (match goal with L : _ = _ \/ _ |- _ => destruct L; discriminate end); try congruence; subs; try congruence. eapply ef_msg; eauto.
    + inversion H2; subst; tys; try (match goal with L : _ = _ \/ _ |- _ => destruct L; discriminate end); try congruence; subs; try congruence. eapply ef_up; eauto using up_eq_trans.
    + inversion H2; subst; tys; try (match goal with L : LRepeated _ = _ \/ _ |- _ => destruct L; discriminate end). eapply ef_list; eauto.
    + inversion H2 as [| | | | | |? ? kk' vk' ? ? T' Ln' N1' N2' X']; subst; tys. eapply ef_map; [eassumption|congruence|assumption|assumption|].
      intros e He. destruct (X e He) as (y & Hy & V). destruct (X' _ Hy) as (z & Hz & V'). cbn [fst snd] in *. eauto.
  - intros INJ. destruct H as [p md s|p md s n x Eo|p md s g k x y Hg Sg Tg V]; intros c H2.
    + inversion H2; subst. apply eo_none.
    + inversion H2; subst.
      * apply eo_wrap. auto.
      * eapply eo_member; eauto. apply (mono_v o2 o3); [assumption|]. apply left_shared. now apply C1.
    + inversion H2 as [|? ? ? ? ? Eo|? ? ? g' k' ? ? Hg' Sg' Tg' V']; subst.
      * eapply eo_member; eauto. apply (mono_v o1 o3); [assumption|]. apply right_shared. now apply C2.
      * assert (g' = g) by (apply INJ; auto). subst. assert (k' = k) by congruence. subst. eapply eo_member; eauto.
  - destruct H as [p m|p m a Eo Na|p m s u h s' u' h' A1 A2 A3]; intros c H2.
    + inversion H2; subst; [apply em_nil|contradiction].
    + eapply mono_m; eauto.
    + inversion H2 as [|? ? ? Eo Nb|? ? ? ? ? ? ? ? B1 B2 B3]; subst.
      * eapply mono_m; [apply em_msg; eassumption|auto].
      * apply em_msg; [eauto| |intros K; rewrite A3, B3; auto].
        intros f Hf O. eapply tr_o; eauto. intros g g' Hg Hg'. eapply wf_num_inj; eauto.
Qed.
End Trans.
End Facts.
